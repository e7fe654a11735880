(** C20-C22. *)
From Coq Require Import List ZArith Reals Lra Lia Bool Permutation.
From Verif Require Import Base BaseLemmas H2Model MapModel MapSpec MapProof RMat XformModel XformSpec XformProof.
Import ListNotations.
Open Scope R_scope.

Lemma mmul_ok : forall a b, cols a = rows b ->
  mmul a b = Ok (Mat (rows a) (cols b) (fun i j => rsum (cols a) (fun k => at_ a i k * at_ b k j))).
Proof. intros a b H. unfold mmul. rewrite (proj2 (Nat.eqb_eq _ _) H). reflexivity. Qed.
Lemma mmul_inv : forall a b r, mmul a b = Ok r -> cols a = rows b
  /\ r = Mat (rows a) (cols b) (fun i j => rsum (cols a) (fun k => at_ a i k * at_ b k j)).
Proof.
  intros a b r H. unfold mmul in H. destruct (Nat.eqb_spec (cols a) (rows b)) as [E|]; [|discriminate].
  cbn in H. split; [exact E|]. injection H as <-. reflexivity.
Qed.
Definition sand (nb nk : nat) (U M V : nat -> nat -> R) (i j : nat) : R :=
  rsum nk (fun l => rsum nb (fun k => U k i * M k l) * V l j).
Lemma sand_ext : forall nb nk U U' M M' V V' i j,
  (forall k, (k < nb)%nat -> U k i = U' k i) -> (forall k l, (k < nb)%nat -> (l < nk)%nat -> M k l = M' k l) ->
  (forall l, (l < nk)%nat -> V l j = V' l j) -> sand nb nk U M V i j = sand nb nk U' M' V' i j.
Proof.
  intros nb nk U U' M M' V V' i j HU HM HV. unfold sand. apply rsum_ext. intros l Hl. rewrite (HV l Hl). f_equal.
  apply rsum_ext. intros k Hk. rewrite (HU k Hk), (HM k l Hk Hl). reflexivity.
Qed.
Lemma sand_M : forall nb nk U M M' V i j, (forall k l, (k < nb)%nat -> (l < nk)%nat -> M k l = M' k l) ->
  sand nb nk U M V i j = sand nb nk U M' V i j.
Proof. intros nb nk U M M' V i j H. apply sand_ext; auto. Qed.
Lemma sand_mm : forall U M V nb nk, rows U = nb -> rows M = nb -> cols M = nk -> rows V = nk ->
  bind (mmul (transpose U) M) (fun w => mmul w V)
  = Ok (Mat (cols U) (cols V) (sand nb nk (at_ U) (at_ M) (at_ V))).
Proof.
  intros U M V nb nk H1 H2 H3 H4. rewrite mmul_ok by (cbn; congruence). cbn [bind].
  rewrite mmul_ok by (cbn; congruence). cbn [transpose rows cols at_]. rewrite H1, H3. reflexivity.
Qed.
Lemma sand_comp : forall nb nk nb2 nk2 U1 U2 M V1 V2 i j,
  sand nb2 nk2 U2 (sand nb nk U1 M V1) V2 i j
  = sand nb nk (fun k i => rsum nb2 (fun p => U1 k p * U2 p i)) M (fun l j => rsum nk2 (fun q => V1 l q * V2 q j)) i j.
Proof.
  intros nb nk nb2 nk2 U1 U2 M V1 V2 i j. unfold sand.
  transitivity (rsum nk2 (fun q => rsum nb2 (fun p => rsum nk (fun l => rsum nb (fun k => U1 k p * U2 p i * M k l * (V1 l q * V2 q j)))))).
  { apply rsum_ext. intros q _. rewrite <- rsum_scale_r. apply rsum_ext. intros p _.
    rewrite <- rsum_scale, <- rsum_scale_r. apply rsum_ext. intros l _.
    rewrite <- rsum_scale_r, <- rsum_scale, <- rsum_scale_r. apply rsum_ext. intros k _. ring. }
  transitivity (rsum nk (fun l => rsum nk2 (fun q => rsum nb (fun k => rsum nb2 (fun p => U1 k p * U2 p i * M k l * (V1 l q * V2 q j)))))).
  { rewrite rsum_swap. rewrite <- (rsum_swap nk2 nk).
    rewrite rsum_swap. apply rsum_ext. intros q _. rewrite rsum_swap. apply rsum_ext. intros l _. rewrite rsum_swap. reflexivity. }
  apply rsum_ext. intros l _. rewrite <- rsum_scale. apply rsum_ext. intros q _.
  rewrite <- rsum_scale_r. apply rsum_ext. intros k _. rewrite <- !rsum_scale_r. apply rsum_ext. intros p _. ring.
Qed.

Definition st (s : subspace) (i : nat) : nat * nat := nth i (ss_states s) (O, O).

Lemma is_diag_eq : forall x, is_diag x = true -> s_bi x = s_ki x.
Proof. intros x H. apply Nat.eqb_eq. exact H. Qed.

Lemma transformed_ok : forall ov os ot ss ts m,
  states_ok os (s_bra ss) -> states_ok os (s_ket ss) -> states_ok ot (s_bra ts) -> states_ok ot (s_ket ts) ->
  sector_ok ss -> sector_ok ts -> same_sector ss ts -> dims m ss ->
  exists r, transformed ov os ot ss ts m = Ok r /\ dims r ts
  /\ forall i j, (i < ss_size (s_bra ts))%nat -> (j < ss_size (s_ket ts))%nat ->
     at_ r i j = sand (ss_size (s_bra ss)) (ss_size (s_ket ss))
        (fun k i => xel ov os ot (s_bra ss) (s_bra ts) (st (s_bra ss) k) (st (s_bra ts) i)) (at_ m)
        (fun l j => xel ov os ot (s_ket ss) (s_ket ts) (st (s_ket ss) l) (st (s_ket ts) j)) i j.
Proof.
  intros ov os ot ss ts m Hb Hk Hb' Hk' Hss Hts [Lb Lk] [Hr Hc].
  destruct (xform_ok ov os ot _ _ Hk Hk' Lk) as (V & EV & RV & CV & AV).
  destruct (xform_ok ov os ot _ _ Hb Hb' Lb) as (U & EU & RU & CU & AU).
  unfold transformed. rewrite EV. cbn [bind].
  assert (Hgoal : forall U', rows U' = ss_size (s_bra ss) -> cols U' = ss_size (s_bra ts) ->
    (forall i j, (i < ss_size (s_bra ss))%nat -> (j < ss_size (s_bra ts))%nat ->
       at_ U' i j = xel ov os ot (s_bra ss) (s_bra ts) (st (s_bra ss) i) (st (s_bra ts) j)) ->
    exists r, bind (mmul (transpose U') m) (fun w => mmul w V) = Ok r /\ dims r ts
    /\ forall i j, (i < ss_size (s_bra ts))%nat -> (j < ss_size (s_ket ts))%nat ->
     at_ r i j = sand (ss_size (s_bra ss)) (ss_size (s_ket ss))
        (fun k i => xel ov os ot (s_bra ss) (s_bra ts) (st (s_bra ss) k) (st (s_bra ts) i)) (at_ m)
        (fun l j => xel ov os ot (s_ket ss) (s_ket ts) (st (s_ket ss) l) (st (s_ket ts) j)) i j).
  { intros U' R' C' A'. eexists. split; [apply (sand_mm U' m V (ss_size (s_bra ss)) (ss_size (s_ket ss))); assumption|].
    split; [split; cbn; assumption|]. intros i j Hi Hj. cbn [at_]. apply sand_ext; intros; [apply A'|reflexivity|apply AV]; assumption. }
  destruct (is_diag ss) eqn:Ed.
  - apply is_diag_eq in Ed. assert (E1 := proj1 Hss Ed). assert (E2 : s_bra ts = s_ket ts) by (apply Hts, Hts; congruence). apply Hgoal; rewrite ?E1, ?E2; assumption.
  - rewrite EU. cbn [bind]. apply Hgoal; assumption.
Qed.

Lemma rsum_states : forall s f, rsum (ss_size s) (fun k => f (st s k)) = lsum (ss_states s) f.
Proof. intros s f. apply (rsum_nth _ (O, O)). Qed.

Lemma same_sector_trans : forall x y z, same_sector x y -> same_sector y z -> same_sector x z.
Proof. intros x y z [H1 H2] [H3 H4]. split; congruence. Qed.

(** C21 *)
Lemma compose_ok : forall ov12 ov23 ov13 o1 o2 o3 x1 x2 x3 m,
  orbitals_ok o2 -> composed o2 ov12 ov23 ov13 ->
  states_ok o1 (s_bra x1) -> states_ok o1 (s_ket x1) -> complete o2 (s_bra x2) -> complete o2 (s_ket x2) ->
  states_ok o3 (s_bra x3) -> states_ok o3 (s_ket x3) ->
  sector_ok x1 -> sector_ok x2 -> sector_ok x3 -> same_sector x1 x2 -> same_sector x2 x3 -> dims m x1 ->
  exists m2 m3 m3', transformed ov12 o1 o2 x1 x2 m = Ok m2 /\ transformed ov23 o2 o3 x2 x3 m2 = Ok m3
  /\ transformed ov13 o1 o3 x1 x3 m = Ok m3' /\ dims m3 x3 /\ same_matrix m3 m3'.
Proof.
  intros ov12 ov23 ov13 o1 o2 o3 x1 x2 x3 m Ho Hc B1 K1 B2 K2 B3 K3 W1 W2 W3 S12 S23 Hm.
  assert (S13 := same_sector_trans _ _ _ S12 S23).
  destruct (transformed_ok ov12 o1 o2 x1 x2 m B1 K1 (complete_ok _ _ B2) (complete_ok _ _ K2) W1 W2 S12 Hm) as (m2 & E2 & D2 & A2).
  destruct (transformed_ok ov23 o2 o3 x2 x3 m2 (complete_ok _ _ B2) (complete_ok _ _ K2) B3 K3 W2 W3 S23 D2) as (m3 & E3 & D3 & A3).
  destruct (transformed_ok ov13 o1 o3 x1 x3 m B1 K1 B3 K3 W1 W3 S13 Hm) as (m3' & E3' & D3' & A3').
  exists m2, m3, m3'. repeat split; try assumption; try apply D3.
  - rewrite (proj1 D3), (proj1 D3'). reflexivity.
  - rewrite (proj2 D3), (proj2 D3'). reflexivity.
  - intros i j Hi Hj. rewrite (proj1 D3) in Hi. rewrite (proj2 D3) in Hj.
    rewrite A3, A3' by assumption.
    rewrite (sand_M _ _ _ _ _ _ i j A2).
    rewrite sand_comp. apply sand_ext; [|reflexivity|].
    + intros k Hk. cbv beta.
      rewrite (rsum_states (s_bra x2) (fun p => xel ov12 o1 o2 (s_bra x1) (s_bra x2) (st (s_bra x1) k) p * xel ov23 o2 o3 (s_bra x2) (s_bra x3) p (st (s_bra x3) i))).
      apply comp_sum; try assumption; [apply S12|apply S23|].
      destruct B1 as [_ B1]. rewrite Forall_forall in B1. apply B1. apply nth_In. exact Hk.
    + intros l Hl. cbv beta.
      rewrite (rsum_states (s_ket x2) (fun p => xel ov12 o1 o2 (s_ket x1) (s_ket x2) (st (s_ket x1) l) p * xel ov23 o2 o3 (s_ket x2) (s_ket x3) p (st (s_ket x3) j))).
      apply comp_sum; try assumption; [apply S12|apply S23|].
      destruct K1 as [_ K1]. rewrite Forall_forall in K1. apply K1. apply nth_In. exact Hl.
Qed.

(** C20 *)
Lemma O1_id : forall os ov sp x y, orbitals_ok os -> identity_overlaps os ov ->
  (x < length (os sp))%nat -> (y < length (os sp))%nat ->
  O1 ov sp (nth x (os sp) ol0) (nth y (os sp) ol0) = if Nat.eqb x y then 1 else 0.
Proof.
  intros os ov sp x y [Hn _] Hid Hx Hy. unfold O1, one_body_overlap.
  destruct (Hid sp _ _ (nth_In _ ol0 Hx) (nth_In _ ol0 Hy)) as [H1 H2].
  destruct (Nat.eqb_spec x y) as [->|Hne].
  - rewrite (proj2 (same_lj_eq _ _)) by auto. rewrite H1 by reflexivity. ring.
  - rewrite H2. { destruct (same_lj _ _); ring. }
    intros E. apply Hne. apply (proj1 (NoDup_nth _ ol0) (Hn sp)); assumption.
Qed.
Lemma xel_id : forall os ov s ij kl, orbitals_ok os -> identity_overlaps os ov -> pair_allowed os s ij -> pair_allowed os s kl ->
  xel ov os os s s ij kl = if pair_eqb ij kl then 1 else 0.
Proof.
  intros os ov s [x y] [x' y'] Ho Hid H1 H2.
  destruct (allowed_orbs _ _ _ H1) as [Hx Hy]. destruct (allowed_orbs _ _ _ H2) as [Hx' Hy'].
  assert (Lx : (x < length (os (sp1 (ss_species s))))%nat) by (apply nth_error_Some; cbn in Hx; rewrite Hx; discriminate).
  assert (Ly : (y < length (os (sp2 (ss_species s))))%nat) by (apply nth_error_Some; cbn in Hy; rewrite Hy; discriminate).
  assert (Lx' : (x' < length (os (sp1 (ss_species s))))%nat) by (apply nth_error_Some; cbn in Hx'; rewrite Hx'; discriminate).
  assert (Ly' : (y' < length (os (sp2 (ss_species s))))%nat) by (apply nth_error_Some; cbn in Hy'; rewrite Hy'; discriminate).
  unfold xel, nfac, pair_eqb. cbn [fst snd].
  destruct (species_dec (ss_species s)) as [E|(E & Hl & Hsp)].
  - rewrite E in *. cbn [species_eqb sp1 sp2] in *. rewrite tbo_pn. unfold orb1, orb2. cbn [fst snd]. rewrite E. cbn [sp1 sp2].
    rewrite !(O1_id os) by assumption. destruct (Nat.eqb x x'), (Nat.eqb y y'); cbn; ring.
  - rewrite tbo_like by exact Hl. unfold orb1, orb2. cbn [fst snd]. rewrite <- Hsp in *.
    rewrite !(O1_id os) by assumption. rewrite E.
    destruct H1 as (a & b & Ha & Hb & Hcan & HP & _). destruct H2 as (a' & b' & Ha' & Hb' & Hcan' & _).
    specialize (Hcan Hl). specialize (Hcan' Hl). cbn [fst snd] in *.
    destruct (Nat.eqb_spec x y) as [<-|Hxy].
    + assert (Hp : phi (ss_J s) (nth x (os (sp1 (ss_species s))) ol0) (nth x (os (sp1 (ss_species s))) ol0) = 1).
      { rewrite phi_diag; [rewrite (HP Hl eq_refl); reflexivity|reflexivity|]. destruct Ho as [_ Ho].
        specialize (Ho (sp1 (ss_species s))). rewrite Forall_forall in Ho. apply Ho. apply nth_In. exact Lx. }
      rewrite Hp.
      destruct (Nat.eqb_spec x x'), (Nat.eqb_spec x y'), (Nat.eqb_spec x' y'); try lia; cbn [andb]; try ring.
      transitivity (2 * (inv_sqrt2 * inv_sqrt2)); [ring|]. rewrite inv_sqrt2_sq. lra.
    + destruct (Nat.eqb_spec x x'), (Nat.eqb_spec y y'), (Nat.eqb_spec x y'), (Nat.eqb_spec y x'), (Nat.eqb_spec x' y'); try lia; cbn [andb]; ring.
Qed.
Lemma pair_eqb_st : forall s i j, NoDup (ss_states s) -> (i < ss_size s)%nat -> (j < ss_size s)%nat ->
  pair_eqb (st s i) (st s j) = Nat.eqb i j.
Proof.
  intros s i j Hn Hi Hj. unfold st. destruct (Nat.eqb_spec i j) as [->|Hne].
  - unfold pair_eqb. rewrite !Nat.eqb_refl. reflexivity.
  - apply not_true_is_false. intros E. apply Hne. apply (proj1 (NoDup_nth _ (O, O)) Hn); [assumption|assumption|].
    unfold pair_eqb in E. apply andb_true_iff in E. destruct E as [E1 E2]. apply Nat.eqb_eq in E1, E2.
    destruct (nth i (ss_states s) (O, O)), (nth j (ss_states s) (O, O)). cbn in *. congruence.
Qed.
Lemma identity_ok : forall os ov x m, orbitals_ok os -> identity_overlaps os ov ->
  states_ok os (s_bra x) -> states_ok os (s_ket x) -> sector_ok x -> dims m x ->
  exists r, transformed ov os os x x m = Ok r /\ same_matrix r m.
Proof.
  intros os ov x m Ho Hid Hb Hk W Hm.
  destruct (transformed_ok ov os os x x m Hb Hk Hb Hk W W (conj eq_refl eq_refl) Hm) as (r & E & D & A).
  exists r. split; [exact E|]. destruct Hm as [Hr Hc], D as [Dr Dc]. split; [congruence|]. split; [congruence|].
  intros i j Hi Hj. rewrite Dr in Hi. rewrite Dc in Hj. rewrite A by assumption. unfold sand.
  assert (HX : forall s, states_ok os s -> forall k l, (k < ss_size s)%nat -> (l < ss_size s)%nat ->
     xel ov os os s s (st s k) (st s l) = if Nat.eqb k l then 1 else 0).
  { intros s [Hn Hf] k l Hk' Hl'. rewrite Forall_forall in Hf.
    rewrite xel_id by (try assumption; apply Hf; apply nth_In; assumption). rewrite pair_eqb_st by assumption. reflexivity. }
  rewrite (rsum_one _ j); [|exact Hj|].
  - rewrite HX, Nat.eqb_refl, Rmult_1_r by assumption. rewrite (rsum_one _ i); [|exact Hi|].
    + rewrite HX, Nat.eqb_refl by assumption. ring.
    + intros k Hk' Hne. rewrite HX by assumption. rewrite (proj2 (Nat.eqb_neq _ _) Hne). ring.
  - intros l Hl Hne. rewrite HX by assumption. rewrite (proj2 (Nat.eqb_neq _ _) Hne). ring.
Qed.

(** C22 *)
Lemma transformed_inv : forall ov os ot x y m r, transformed ov os ot x y m = Ok r ->
  exists U V, rows U = rows m /\ rows V = cols m
  /\ r = Mat (cols U) (cols V) (sand (rows m) (cols m) (at_ U) (at_ m) (at_ V))
  /\ (is_diag x = true -> U = V)
  /\ forall m', rows m' = rows m -> cols m' = cols m ->
     transformed ov os ot x y m' = Ok (Mat (cols U) (cols V) (sand (rows m) (cols m) (at_ U) (at_ m') (at_ V))).
Proof.
  intros ov os ot x y m r H. unfold transformed in *.
  destruct (xform_matrix ov os ot (s_ket x) (s_ket y)) as [V| | |]; try discriminate. cbn [bind] in *.
  assert (HG : forall U, bind (mmul (transpose U) m) (fun w => mmul w V) = Ok r -> rows U = rows m /\ rows V = cols m
     /\ r = Mat (cols U) (cols V) (sand (rows m) (cols m) (at_ U) (at_ m) (at_ V))
     /\ forall m', rows m' = rows m -> cols m' = cols m ->
     bind (mmul (transpose U) m') (fun w => mmul w V) = Ok (Mat (cols U) (cols V) (sand (rows m) (cols m) (at_ U) (at_ m') (at_ V)))).
  { intros U HU. destruct (mmul (transpose U) m) as [w| | |] eqn:Ew; try discriminate. cbn [bind] in HU.
    apply mmul_inv in Ew. destruct Ew as [E1 ->]. apply mmul_inv in HU. destruct HU as [E2 ->]. cbn in E1, E2.
    split; [exact E1|]. split; [symmetry; exact E2|]. split; [cbn; rewrite E1; reflexivity|].
    intros m' R' C'. rewrite (sand_mm U m' V (rows m) (cols m)); auto. }
  destruct (is_diag x).
  - destruct (HG _ H) as (H1 & H2 & H3 & H4). exists V, V. repeat split; auto.
  - destruct (xform_matrix ov os ot (s_bra x) (s_bra y)) as [U| | |]; try discriminate. cbn [bind] in *.
    destruct (HG _ H) as (H1 & H2 & H3 & H4). exists U, V. repeat split; auto. discriminate.
Qed.
Lemma symmetric_ok : forall ov os ot x y m r, s_bi x = s_ki x -> symmetric m ->
  transformed ov os ot x y m = Ok r -> symmetric r.
Proof.
  intros ov os ot x y m r Hd [Hsq Hsym] H. destruct (transformed_inv _ _ _ _ _ _ _ H) as (U & V & HU & HV & -> & HUV & _).
  assert (E : U = V) by (apply HUV; apply Nat.eqb_eq; exact Hd). subst U. split; [reflexivity|]. intros i j _ _. cbn.
  unfold sand. rewrite <- Hsq. 
  transitivity (rsum (rows m) (fun l => rsum (rows m) (fun k => at_ V k i * at_ m k l * at_ V l j))).
  - apply rsum_ext. intros l _. rewrite <- rsum_scale_r. reflexivity.
  - rewrite rsum_swap. apply rsum_ext. intros k Hk. rewrite <- rsum_scale_r. apply rsum_ext. intros l Hl.
    rewrite (Hsym k l) by (rewrite <- ?Hsq; assumption). ring.
Qed.
Lemma linear_ok : forall ov os ot x y m1 m2 r1 r2 c, rows m1 = rows m2 -> cols m1 = cols m2 ->
  transformed ov os ot x y m1 = Ok r1 -> transformed ov os ot x y m2 = Ok r2 ->
  exists ra rs, transformed ov os ot x y (madd m1 m2) = Ok ra /\ same_matrix ra (madd r1 r2)
  /\ transformed ov os ot x y (mscale c m1) = Ok rs /\ same_matrix rs (mscale c r1).
Proof.
  intros ov os ot x y m1 m2 r1 r2 c Hr Hc H1 H2.
  destruct (transformed_inv _ _ _ _ _ _ _ H1) as (U & V & HU & HV & E1 & _ & HT).
  rewrite (HT m2) in H2 by auto. injection H2 as <-. subst r1.
  eexists; eexists. split; [apply HT; reflexivity|]. split; [|split; [apply HT; reflexivity|]].
  - split; [reflexivity|]. split; [reflexivity|]. intros i j _ _. cbn. unfold sand. rewrite <- rsum_plus.
    apply rsum_ext. intros l _. rewrite <- Rmult_plus_distr_r, <- rsum_plus. f_equal. apply rsum_ext. intros; ring.
  - split; [reflexivity|]. split; [reflexivity|]. intros i j _ _. cbn. unfold sand. rewrite <- rsum_scale.
    apply rsum_ext. intros l _. rewrite <- Rmult_assoc, <- rsum_scale. f_equal. apply rsum_ext. intros; ring.
Qed.
Lemma transformed_total : forall ov os ot x y m,
  states_ok os (s_bra x) -> states_ok os (s_ket x) -> states_ok ot (s_bra y) -> states_ok ot (s_ket y) ->
  sector_ok x -> sector_ok y -> same_sector x y -> dims m x ->
  exists r, transformed ov os ot x y m = Ok r /\ dims r y.
Proof.
  intros ov os ot x y m H1 H2 H3 H4 H5 H6 H7 H8.
  destruct (transformed_ok ov os ot x y m H1 H2 H3 H4 H5 H6 H7 H8) as (r & E & D & _). exists r. auto.
Qed.
