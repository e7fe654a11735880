From Coq Require Import List ZArith Reals Lra Lia Bool Psatz.
From Verif Require Import Base BaseLemmas RMat OscModel OscSpec OscProof.
Import ListNotations.
Open Scope R_scope.

Lemma k_sqr_close : Rabs (k_sqrt_2 * k_sqrt_2 / 2 - 1) <= / 10000000000000000.
Proof. apply Rabs_le. unfold k_sqrt_2. lra. Qed.

(** ** C29 *)
Lemma sqr_num : forall bN bl kN kl s, ho bN bl -> ho kN kl -> exists x, coordinate_sqr bN bl kN kl s = Num x.
Proof.
  intros bN bl kN kl s Hb Hk. destruct (ho_step_even _ _ Hb) as [m [E Hm]]. destruct (ho_step_even _ _ Hk) as [p [E' Hp]].
  destruct Hb as [Hb _]. destruct Hk as [Hk _].
  unfold coordinate_sqr. zcase; try (rewrite fsqrt_rt by nia); cbn [nscale]; eexists; reflexivity.
Qed.
Lemma virial : forall bN kN l, ho bN l -> ho kN l ->
  exists x y, coordinate_sqr bN l kN l 1 = Num x /\ coordinate_sqr bN l kN l (-1) = Num y
  /\ x - y = (if (bN =? kN)%Z then 2 * IZR kN + 3 else 0).
Proof.
  intros bN kN l Hb Hk. destruct (sqr_num bN l kN l 1 Hb Hk) as [x Hx]. destruct (sqr_num bN l kN l (-1) Hb Hk) as [y Hy].
  exists x, y. split; [exact Hx|]. split; [exact Hy|]. 
  unfold coordinate_sqr in Hx, Hy. rewrite Z.sub_diag in Hx, Hy. cbn [Z.eqb] in Hx, Hy.
  destruct (Z.eqb_spec (bN - kN) 2) as [E|E]; [rewrite Hx in Hy; injection Hy as ->; zcase; ring|].
  destruct (Z.eqb_spec (bN - kN) 0) as [E0|E0].
  - injection Hx as <-. injection Hy as <-. zcase. field.
  - destruct (Z.eqb_spec (bN - kN) (-2)) as [E1|E1]; rewrite Hx in Hy; injection Hy as ->; zcase; ring.
Qed.
Lemma sqr_symmetric : forall bN bl kN kl s, ho bN bl -> ho kN kl -> coordinate_sqr bN bl kN kl s = coordinate_sqr kN kl bN bl s.
Proof.
  intros bN bl kN kl s [Hb _] [Hk _]. unfold coordinate_sqr.
  destruct (dN_cases bN kN) as [E|[E|[E|E]]]; try subst bN; destruct (dN_cases bl kl) as [F|[F|[F|F]]]; try subst bl;
    zcase; try reflexivity; f_equal; f_equal; ring.
Qed.

(** ** C55: the ladder elements satisfy the oscillator algebra *)
Lemma mid_two : forall (f : Z -> R) kN li Ns, states_up_to (kN + 1) li Ns ->
  (forall N, ho N li -> N <> (kN - 1)%Z -> N <> (kN + 1)%Z -> f N = 0) ->
  (~ ho (kN - 1) li -> f (kN - 1)%Z = 0) -> (~ ho (kN + 1) li -> f (kN + 1)%Z = 0) -> lsum Ns f = f (kN - 1)%Z + f (kN + 1)%Z.
Proof.
  intros f kN li Ns (Hn & Hho & Hall) H H1 H2. apply lsum_two; [exact Hn|lia| | |].
  - intros N HN. apply H. apply Hho. exact HN.
  - intros Hni. apply H1. intros Hh. apply Hni. apply Hall; [exact Hh|lia].
  - intros Hni. apply H2. intros Hh. apply Hni. apply Hall; [exact Hh|lia].
Qed.
Lemma empty_negative : forall M l Ns, (l < 0)%Z -> states_up_to M l Ns -> Ns = [].
Proof.
  intros M l Ns Hl (_ & Hho & _). destruct Ns as [|N Ns]; [reflexivity|]. destruct (Hho N (or_introl eq_refl)) as [H _]. lia.
Qed.

(** c-dagger after c through li *)
Lemma number_path : forall bN kN l li Ns, ho bN l -> ho kN l -> one_step l li -> (0 <= li)%Z -> states_up_to (kN + 1) li Ns ->
  lsum Ns (fun N => val (cdagger bN l N li) * val (clower N li kN l))
  = delta bN kN * IZR (if (li =? l + 1)%Z then kN - l else kN + l + 1).
Proof.
  intros bN kN l li Ns Hb Hk Hs Hl Hns. destruct (ho_mid _ _ _ Hk Hl Hs) as [Hp Hm].
  assert (Hkz : (0 <= l <= kN)%Z) by (destruct Hk; assumption).
  rewrite (mid_two (fun N => val (cdagger bN l N li) * val (clower N li kN l)) kN li Ns Hns).
  2:{ intros N _ H1 H2. rewrite clower_zero by lia. cbn. ring. }
  2:{ intros Hn. destruct Hm as [Hm|[-> ->]]; [contradiction|]. rewrite clower_up by exact Hk. rewrite Z.sub_diag, rt_0. cbn. ring. }
  2:{ intros Hn. contradiction. }
  rewrite (clower_zero (kN + 1) li kN l) by lia. cbn [val]. rewrite Rmult_0_r, Rplus_0_r. unfold delta.
  destruct (Z.eqb_spec bN kN) as [->|Hne].
  - rewrite Rmult_1_l. destruct Hm as [Hm|[E1 E2]].
    + rewrite (adjoint kN l (kN - 1) li Hk Hm). destruct Hs as [->| ->].
      * rewrite clower_up by exact Hk. zcase. cbn. rewrite Rmult_opp_opp. apply rt_sqr. lia.
      * rewrite clower_down by exact Hk. zcase. cbn. apply rt_sqr. lia.
    + subst kN li. rewrite clower_up by exact Hk. rewrite Z.sub_diag, rt_0. cbn. zcase. cbn. ring.
  - rewrite Rmult_0_l. rewrite cdagger_zero by lia. cbn. ring.
Qed.
(** c after c-dagger through li *)
Lemma raised_path : forall bN kN l li Ns, ho bN l -> ho kN l -> one_step l li -> (0 <= li)%Z -> states_up_to (kN + 1) li Ns ->
  lsum Ns (fun N => val (clower bN l N li) * val (cdagger N li kN l))
  = delta bN kN * IZR (if (li =? l + 1)%Z then kN + l + 3 else kN - l + 2).
Proof.
  intros bN kN l li Ns Hb Hk Hs Hl Hns. destruct (ho_mid _ _ _ Hk Hl Hs) as [Hp Hm].
  assert (Hkz : (0 <= l <= kN)%Z) by (destruct Hk; assumption).
  rewrite (mid_two (fun N => val (clower bN l N li) * val (cdagger N li kN l)) kN li Ns Hns).
  2:{ intros N _ H1 H2. rewrite cdagger_zero by lia. cbn. ring. }
  2:{ intros Hn. rewrite cdagger_zero by lia. cbn. ring. }
  2:{ intros Hn. contradiction. }
  rewrite (cdagger_zero (kN - 1) li kN l) by lia. cbn [val]. rewrite Rmult_0_r, Rplus_0_l. unfold delta.
  destruct (Z.eqb_spec bN kN) as [->|Hne].
  - rewrite Rmult_1_l. rewrite <- (adjoint (kN + 1) li kN l Hp Hk). destruct Hs as [->| ->].
    + rewrite cdagger_up by exact Hk. zcase. cbn. apply rt_sqr. lia.
    + rewrite cdagger_down by exact Hk. zcase. cbn. rewrite Rmult_opp_opp. apply rt_sqr. lia.
  - rewrite Rmult_0_l. rewrite clower_zero by lia. cbn. ring.
Qed.

Lemma weights : forall l a b c d : Z, (0 <= l)%Z -> ((l + 1) * a + l * b = c * (2 * l + 1))%Z ->
  angular_sqr l (l + 1) * (IZR d * IZR a) + angular_sqr l (l - 1) * (IZR d * IZR b) = IZR d * IZR c.
Proof.
  intros l a b c d Hl E. unfold angular_sqr. replace (Z.max l (l + 1)) with (l + 1)%Z by lia. replace (Z.max l (l - 1)) with l by lia.
  assert (Hne : IZR (2 * l + 1) <> 0) by (apply IZR_neq; lia).
  apply (f_equal IZR) in E. rewrite plus_IZR, !mult_IZR in E.
  replace (IZR (l + 1) / IZR (2 * l + 1) * (IZR d * IZR a) + IZR l / IZR (2 * l + 1) * (IZR d * IZR b))
    with (IZR d * (IZR (l + 1) * IZR a + IZR l * IZR b) / IZR (2 * l + 1)) by (field; exact Hne).
  rewrite E. field. exact Hne.
Qed.
Lemma delta_Z : forall a b, delta a b = IZR (if (a =? b)%Z then 1 else 0).
Proof. intros. unfold delta. destruct (a =? b)%Z; reflexivity. Qed.

Theorem number_operator : forall bN kN l Ns, ho bN l -> ho kN l -> (forall li, states_up_to (kN + 1) li (Ns li)) ->
  over_intermediate l Ns (fun N li => val (cdagger bN l N li) * val (clower N li kN l)) = delta bN kN * IZR kN.
Proof.
  intros bN kN l Ns Hb Hk Hns. assert (Hl : (0 <= l)%Z) by (destruct Hk; lia). unfold over_intermediate.
  rewrite (number_path bN kN l (l + 1)) by (try assumption; try lia; try apply Hns; left; reflexivity).
  destruct (Z.eq_dec l 0) as [->|Hne].
  - rewrite (empty_negative _ (0 - 1) (Ns (0 - 1)%Z) ltac:(lia) (Hns (0 - 1)%Z)). cbn [lsum]. zcase. unfold angular_sqr. cbn.
    replace (kN - 0)%Z with kN by lia. field.
  - rewrite (number_path bN kN l (l - 1)) by (try assumption; try lia; try apply Hns; right; reflexivity).
    rewrite !delta_Z. zcase; apply weights; lia.
Qed.
Theorem canonical_commutator : forall bN kN l Ns, ho bN l -> ho kN l -> (forall li, states_up_to (kN + 1) li (Ns li)) ->
  over_intermediate l Ns (fun N li => val (clower bN l N li) * val (cdagger N li kN l))
  - over_intermediate l Ns (fun N li => val (cdagger bN l N li) * val (clower N li kN l)) = 3 * delta bN kN.
Proof.
  intros bN kN l Ns Hb Hk Hns. rewrite number_operator by assumption.
  assert (Hl : (0 <= l)%Z) by (destruct Hk; lia). unfold over_intermediate.
  rewrite (raised_path bN kN l (l + 1)) by (try assumption; try lia; try apply Hns; left; reflexivity).
  assert (E : angular_sqr l (l + 1) * (delta bN kN * IZR (if (l + 1 =? l + 1)%Z then kN + l + 3 else kN - l + 2))
     + angular_sqr l (l - 1) * lsum (Ns (l - 1)%Z) (fun N => val (clower bN l N (l - 1)) * val (cdagger N (l - 1) kN l))
     = delta bN kN * IZR (kN + 3)).
  { destruct (Z.eq_dec l 0) as [->|Hne].
    - rewrite (empty_negative _ (0 - 1) (Ns (0 - 1)%Z) ltac:(lia) (Hns (0 - 1)%Z)). cbn [lsum]. zcase. unfold angular_sqr. cbn.
      replace (kN + 0 + 3)%Z with (kN + 3)%Z by lia. field.
    - rewrite (raised_path bN kN l (l - 1)) by (try assumption; try lia; try apply Hns; right; reflexivity).
      rewrite !delta_Z. zcase; apply weights; lia. }
  rewrite E, plus_IZR. ring.
Qed.

(** ** C30 *)
Lemma in_zrange : forall a b x, In x (zrange a b) <-> (a <= x <= b)%Z.
Proof.
  intros a b x. unfold zrange. rewrite in_map_iff. split.
  - intros (i & <- & Hi). apply in_seq in Hi. lia.
  - intros H. exists (Z.to_nat (x - a)). split; [lia|]. apply in_seq. lia.
Qed.
Lemma NoDup_zrange : forall a b, NoDup (zrange a b).
Proof.
  intros a b. unfold zrange. apply FinFun.Injective_map_NoDup; [|apply seq_NoDup]. intros x y H. lia.
Qed.

Lemma column_loop : forall (bd kd : nat) (kn : Z) (f : Z -> num) (el : Z -> outcome num) l (m : mat num),
  NoDup l -> (forall i, In i l -> (0 <= i < Z.of_nat bd)%Z /\ el i = Ok (f i)) -> rows m = bd -> cols m = kd -> (0 <= kn < Z.of_nat kd)%Z ->
  exists r, for_each l (fun bn m => x <- el bn ;; mat_put m (Z.to_nat bn) (Z.to_nat kn) x) m = Ok r /\ rows r = bd /\ cols r = kd
  /\ forall i j, at_ r i j = if Nat.eqb j (Z.to_nat kn) && existsb (Z.eqb (Z.of_nat i)) l then f (Z.of_nat i) else at_ m i j.
Proof.
  intros bd kd kn f el l. induction l as [|b l IH]; intros m Hn Hl Hr Hc Hk.
  - exists m. cbn. split; [reflexivity|]. split; [exact Hr|]. split; [exact Hc|]. intros. rewrite Bool.andb_false_r. reflexivity.
  - inversion Hn as [|? ? Hnin Hn']; subst. destruct (Hl b (or_introl eq_refl)) as [Hb Eb]. cbn [for_each]. rewrite Eb. cbn [bind].
    unfold mat_put at 1. replace (Nat.ltb (Z.to_nat b) (rows m)) with true by (symmetry; apply Nat.ltb_lt; lia).
    replace (Nat.ltb (Z.to_nat kn) (cols m)) with true by (symmetry; apply Nat.ltb_lt; lia). cbn [andb cassert bind].
    destruct (IH (mset m (Z.to_nat b) (Z.to_nat kn) (f b)) Hn') as (r & E & R1 & R2 & R3); try assumption; try reflexivity.
    { intros i Hi. apply Hl. right. exact Hi. }
    exists r. split; [exact E|]. split; [exact R1|]. split; [exact R2|]. intros i j. rewrite R3. cbn [existsb mset at_].
    destruct (Nat.eqb_spec j (Z.to_nat kn)) as [->|Hj]; cbn [andb]; [|rewrite Bool.andb_false_r; reflexivity].
    destruct (existsb (Z.eqb (Z.of_nat i)) l) eqn:Ex; [rewrite Bool.orb_true_r; reflexivity|]. rewrite Bool.orb_false_r, Bool.andb_true_r.
    destruct (Z.eqb_spec (Z.of_nat i) b) as [<-|Hi].
    + rewrite Nat2Z.id, Nat.eqb_refl. reflexivity.
    + destruct (Nat.eqb_spec i (Z.to_nat b)); [lia|reflexivity].
Qed.

Lemma banded_ok : forall bd kd L dL band el (f : Z -> Z -> num) (lo hi : Z -> Z),
  (forall k, band k = Some (lo k, hi k)) -> (forall b k, (0 <= b)%Z -> (0 <= k)%Z -> el b k = Ok (f b k)) ->
  exists r, banded bd kd L dL band el = Ok r /\ rows r = bd /\ cols r = kd
  /\ forall i j, (i < bd)%nat -> (j < kd)%nat ->
     at_ r i j = if ((lo (Z.of_nat j) <=? Z.of_nat i) && (Z.of_nat i <=? hi (Z.of_nat j)))%Z then f (Z.of_nat i) (Z.of_nat j) else Num 0.
Proof.
  intros bd kd L dL band el f lo hi Hband Hel. unfold banded.
  assert (G : forall l m, NoDup l -> (forall k, In k l -> (0 <= k < Z.of_nat kd)%Z) -> rows m = bd -> cols m = kd ->
    exists r, for_each l (fun ket_n m => ' (lo, hi) <- get (band ket_n) ;;
      for_each (zrange (Z.max lo 0) (Z.min hi (Z.of_nat bd - 1))) (fun bra_n m => x <- el bra_n ket_n ;;
      mat_put m (Z.to_nat bra_n) (Z.to_nat ket_n) x) m) m = Ok r /\ rows r = bd /\ cols r = kd
    /\ forall i j, (i < bd)%nat -> (j < kd)%nat -> at_ r i j =
       if existsb (Z.eqb (Z.of_nat j)) l && ((lo (Z.of_nat j) <=? Z.of_nat i) && (Z.of_nat i <=? hi (Z.of_nat j)))%Z
       then f (Z.of_nat i) (Z.of_nat j) else at_ m i j).
  { induction l as [|k l IH]; intros m Hn Hl Hr Hc.
    - exists m. cbn. auto.
    - inversion Hn as [|? ? Hnin Hn']; subst. cbn [for_each]. rewrite Hband. cbn [get bind].
      assert (Hk : (0 <= k < Z.of_nat (cols m))%Z) by (apply Hl; left; reflexivity).
      destruct (column_loop (rows m) (cols m) k (fun b => f b k) (fun b => el b k) (zrange (Z.max (lo k) 0) (Z.min (hi k) (Z.of_nat (rows m) - 1))) m)
        as (r1 & E1 & R1 & C1 & A1); try reflexivity; try lia.
      { apply NoDup_zrange. }
      { intros i Hi. apply in_zrange in Hi. split; [lia|apply Hel; lia]. }
      rewrite E1. cbn [bind]. destruct (IH r1 Hn') as (r & E & R & C & A); try congruence.
      { intros x Hx. apply Hl. right. exact Hx. }
      exists r. split; [exact E|]. split; [exact R|]. split; [exact C|]. intros i j Hi Hj. rewrite A by assumption. cbn [existsb].
      rewrite A1. destruct (Z.eqb_spec (Z.of_nat j) k) as [<-|Hne].
      + rewrite Nat2Z.id, Nat.eqb_refl. cbn [orb andb].
        replace (existsb (Z.eqb (Z.of_nat i)) (zrange (Z.max (lo (Z.of_nat j)) 0) (Z.min (hi (Z.of_nat j)) (Z.of_nat (rows m) - 1))))
          with ((lo (Z.of_nat j) <=? Z.of_nat i) && (Z.of_nat i <=? hi (Z.of_nat j)))%Z.
        * destruct (existsb _ l); destruct ((lo (Z.of_nat j) <=? Z.of_nat i) && (Z.of_nat i <=? hi (Z.of_nat j)))%Z; reflexivity.
        * apply Bool.eq_iff_eq_true. rewrite existsb_exists, Bool.andb_true_iff, !Z.leb_le. split.
          -- intros H. exists (Z.of_nat i). split; [apply in_zrange; lia|apply Z.eqb_refl].
          -- intros (y & Hy & Ey). apply Z.eqb_eq in Ey. subst y. apply in_zrange in Hy. lia.
      + cbn [orb]. destruct (Nat.eqb_spec j (Z.to_nat k)); [lia|]. reflexivity. }
  destruct (G (zrange 0 (Z.of_nat kd - 1)) (mzero (Num 0) bd kd)) as (r & E & R & C & A); try reflexivity.
  { apply NoDup_zrange. }
  { intros k Hk. apply in_zrange in Hk. lia. }
  exists r. split; [exact E|]. split; [exact R|]. split; [exact C|]. intros i j Hi Hj. rewrite A by assumption.
  replace (existsb (Z.eqb (Z.of_nat j)) (zrange 0 (Z.of_nat kd - 1))) with true; [reflexivity|].
  symmetry. apply existsb_exists. exists (Z.of_nat j). split; [apply in_zrange; lia|apply Z.eqb_refl].
Qed.

(** the state with radial quantum number n *)
Lemma ho_n : forall n l, (0 <= n)%Z -> (0 <= l)%Z -> ho (2 * n + l) l.
Proof. intros n l H1 H2. apply (ho_intro _ _ n); lia. Qed.

Theorem radial_complete : forall bd kd L dL s, (0 <= L)%Z -> (0 <= L + dL)%Z -> (dL = -1 \/ dL = 1)%Z ->
  exists m, radial_matrix bd kd L dL s = Ok m /\ rows m = bd /\ cols m = kd
  /\ forall i j, (i < bd)%nat -> (j < kd)%nat ->
     coordinate (2 * Z.of_nat i + (L + dL)) (L + dL) (2 * Z.of_nat j + L) L s = Ok (at_ m i j).
Proof.
  intros bd kd L dL s HL HL' Hd. unfold radial_matrix.
  replace ((dL =? -1)%Z || (dL =? 1)%Z) with true by (destruct Hd as [->| ->]; reflexivity). cbn [cassert bind].
  assert (Hs : one_step L (L + dL)) by (destruct Hd as [->| ->]; [right|left]; lia).
  set (f := fun b k => Num ((IZR s * val (cdagger (2 * b + (L + dL)) (L + dL) (2 * k + L) L) + val (clower (2 * b + (L + dL)) (L + dL) (2 * k + L) L)) / k_sqrt_2)).
  assert (Hel : forall b k, (0 <= b)%Z -> (0 <= k)%Z -> coordinate (2 * b + (L + dL)) (L + dL) (2 * k + L) L s = Ok (f b k)).
  { intros b k Hb Hk. apply coordinate_num; [apply ho_n; assumption|exact Hs]. }
  destruct (banded_ok bd kd L dL (fun k => if (dL =? -1)%Z then Some (k, k + 1)%Z else if (dL =? 1)%Z then Some (k - 1, k)%Z else None)
    (fun b k => coordinate (2 * b + (L + dL)) (L + dL) (2 * k + L) L s) f
    (fun k => if (dL =? -1)%Z then k else k - 1)%Z (fun k => if (dL =? -1)%Z then k + 1 else k)%Z) as (r & E & R & C & A).
  { intros k. destruct Hd as [->| ->]; reflexivity. }
  { exact Hel. }
  exists r. split; [exact E|]. split; [exact R|]. split; [exact C|]. intros i j Hi Hj. rewrite A by assumption. rewrite Hel by lia. f_equal.
  match goal with |- _ = if ?c then _ else _ => destruct c eqn:Ec end; [reflexivity|]. unfold f.
  apply Bool.andb_false_iff in Ec. rewrite !Z.leb_gt in Ec.
  rewrite cdagger_zero, clower_zero; [cbn; f_equal; unfold Rdiv; ring| |]; destruct Hd as [->| ->]; cbn in Ec; lia.
Qed.

Lemma sqr_matrix : forall bd kd L dL s, (0 <= L)%Z -> (0 <= L + dL)%Z -> (dL = 0 \/ s = 1)%Z -> (dL = -2 \/ dL = 0 \/ dL = 2)%Z ->
  exists m, radial_sqr_matrix bd kd L dL s = Ok m /\ rows m = bd /\ cols m = kd
  /\ forall i j, (i < bd)%nat -> (j < kd)%nat ->
     at_ m i j = if (dL =? 2)%Z && (Z.of_nat i =? Z.of_nat j - 2)%Z then Num 0
       else coordinate_sqr (2 * Z.of_nat i + (L + dL)) (L + dL) (2 * Z.of_nat j + L) L s.
Proof.
  intros bd kd L dL s HL HL' Hs Hd. unfold radial_sqr_matrix.
  replace ((dL =? 0)%Z || (s =? 1)%Z) with true
    by (destruct Hs as [->| ->]; [reflexivity|rewrite Bool.orb_true_r; reflexivity]). cbn [cassert bind].
  destruct (banded_ok bd kd L dL (fun k => if (dL =? -2)%Z then Some (k, k + 2)%Z else if (dL =? 0)%Z then Some (k - 1, k + 1)%Z
      else if (dL =? 2)%Z then Some (k - 1, k)%Z else None)
    (fun b k => Ok (coordinate_sqr (2 * b + (L + dL)) (L + dL) (2 * k + L) L s))
    (fun b k => coordinate_sqr (2 * b + (L + dL)) (L + dL) (2 * k + L) L s)
    (fun k => if (dL =? -2)%Z then k else k - 1)%Z (fun k => if (dL =? -2)%Z then k + 2 else if (dL =? 0)%Z then k + 1 else k)%Z) as (r & E & R & C & A).
  { intros k. destruct Hd as [->|[->| ->]]; reflexivity. }
  { reflexivity. }
  exists r. split; [exact E|]. split; [exact R|]. split; [exact C|]. intros i j Hi Hj. rewrite A by assumption.
  match goal with |- (if ?c then _ else _) = _ => destruct c eqn:Ec end.
  - apply andb_prop in Ec. rewrite !Z.leb_le in Ec. destruct Hd as [->|[->| ->]]; cbn in Ec |- *; try reflexivity.
    destruct (Z.eqb_spec (Z.of_nat i) (Z.of_nat j - 2)); [lia|reflexivity].
  - apply Bool.andb_false_iff in Ec. rewrite !Z.leb_gt in Ec.
    destruct ((dL =? 2)%Z && (Z.of_nat i =? Z.of_nat j - 2)%Z) eqn:E2; [reflexivity|].
    symmetry. apply sqr_val_0; apply Bool.andb_false_iff in E2; rewrite !Z.eqb_neq in E2; destruct Hd as [->|[->| ->]]; cbn in Ec, E2; lia.
Qed.
Theorem radial_sqr_complete : forall bd kd L dL s, (0 <= L)%Z -> (0 <= L + dL)%Z -> (dL = 0 \/ (dL = -2 /\ s = 1))%Z ->
  exists m, radial_sqr_matrix bd kd L dL s = Ok m /\ rows m = bd /\ cols m = kd
  /\ forall i j, (i < bd)%nat -> (j < kd)%nat ->
     at_ m i j = coordinate_sqr (2 * Z.of_nat i + (L + dL)) (L + dL) (2 * Z.of_nat j + L) L s.
Proof.
  intros bd kd L dL s HL HL' Hd. destruct (sqr_matrix bd kd L dL s HL HL' ltac:(lia) ltac:(lia)) as (m & E & R & C & A).
  exists m. split; [exact E|]. split; [exact R|]. split; [exact C|]. intros i j Hi Hj. rewrite A by assumption.
  replace (dL =? 2)%Z with false by (symmetry; apply Z.eqb_neq; lia). reflexivity.
Qed.
(** for delta_L = 2 exactly the third band is missing, and it is nonzero *)
Theorem radial_sqr_upward : forall bd kd L, (0 <= L)%Z ->
  exists m, radial_sqr_matrix bd kd L 2 1 = Ok m /\ rows m = bd /\ cols m = kd
  /\ forall i j, (i < bd)%nat -> (j < kd)%nat ->
     if (Nat.eqb (i + 2) j) then at_ m i j = Num 0 /\ exists x, 0 < x /\ coordinate_sqr (2 * Z.of_nat i + (L + 2)) (L + 2) (2 * Z.of_nat j + L) L 1 = Num x
     else at_ m i j = coordinate_sqr (2 * Z.of_nat i + (L + 2)) (L + 2) (2 * Z.of_nat j + L) L 1.
Proof.
  intros bd kd L HL. destruct (sqr_matrix bd kd L 2 1 HL ltac:(lia) ltac:(lia) ltac:(lia)) as (m & E & R & C & A).
  exists m. split; [exact E|]. split; [exact R|]. split; [exact C|]. intros i j Hi Hj. rewrite A by assumption. change (2 =? 2)%Z with true. cbn [andb].
  destruct (Nat.eqb_spec (i + 2) j) as [<-|Hne].
  - destruct (Z.eqb_spec (Z.of_nat i) (Z.of_nat (i + 2) - 2)); [|lia]. split; [reflexivity|].
    unfold coordinate_sqr. zcase. rewrite fsqrt_rt by nia. cbn [nscale]. eexists. split; [|reflexivity].
    apply Rmult_lt_0_compat; [lra|]. apply rt_pos. nia.
  - destruct (Z.eqb_spec (Z.of_nat i) (Z.of_nat j - 2)); [lia|reflexivity].
Qed.

(** ** C31 *)
Lemma sqr_block : forall ct x, (0 <= r_L (snd x))%Z -> scalar_sector x ->
  exists m, coordinate_sqr_block ct 0 x = Ok m /\ rows m = r_dim (snd x) /\ cols m = r_dim (snd x)
  /\ forall i j, (i < r_dim (snd x))%nat -> (j < r_dim (snd x))%nat ->
     at_ m i j = nscale (match ct with KR => 2 | KK => 1 / 2 end)
       (coordinate_sqr (2 * Z.of_nat i + r_L (snd x)) (r_L (snd x)) (2 * Z.of_nat j + r_L (snd x)) (r_L (snd x))
         (match ct with KR => 1 | KK => -1 end)).
Proof.
  intros ct [b k] HL (E1 & E2 & E3). cbn [fst snd] in *. unfold coordinate_sqr_block. rewrite E1, E2, E3, !Z.eqb_refl. cbn [andb negb].
  destruct (radial_sqr_complete (r_dim k) (r_dim k) (r_L k) 0 (match ct with KR => 1 | KK => -1 end)%Z HL ltac:(lia) ltac:(lia)) as (m & E & R & C & A).
  change (0 =? 1)%Z with false. cbv iota. rewrite E. cbn [bind]. eexists. split; [reflexivity|]. cbn [rows cols mat_scale at_].
  split; [exact R|]. split; [exact C|]. intros i j Hi Hj. rewrite A by assumption. rewrite Z.add_0_r, Rmult_1_l. reflexivity.
Qed.
Lemma sqr_block_other : forall ct x T0, ~ scalar_sector x -> coordinate_sqr_block ct T0 x = Ok (mzero (Num 0) (r_dim (fst x)) (r_dim (snd x))).
Proof.
  intros ct [b k] T0 H. unfold coordinate_sqr_block, scalar_sector in *. cbn [fst snd] in *.
  destruct (Z.eqb_spec (r_L b) (r_L k)); [|reflexivity]. destruct (Z.eqb_spec (r_S b) (r_S k)); [|reflexivity].
  destruct (Z.eqb_spec (r_T b) (r_T k)); [|reflexivity]. elim H. auto.
Qed.
Lemma blocks_nth : forall f l, (forall x, In x l -> exists m, f x = Ok m) ->
  exists bs, blocks_of f l = Ok bs /\ length bs = length l /\ forall i x, nth_error l i = Some x -> exists m, nth_error bs i = Some m /\ f x = Ok m.
Proof.
  intros f l. induction l as [|x l IH]; intros H; cbn.
  - exists []. split; [reflexivity|]. split; [reflexivity|]. intros [|i] x Hx; discriminate.
  - destruct (H x (or_introl eq_refl)) as [m Em]. destruct IH as (bs & E & L & N); [intros; apply H; right; assumption|].
    rewrite Em, E. cbn. exists (m :: bs). split; [reflexivity|]. split; [cbn; congruence|]. intros [|i] y Hy; cbn in *.
    + injection Hy as <-. exists m. auto.
    + apply N. exact Hy.
Qed.
Lemma scalar_dec : forall x, scalar_sector x \/ ~ scalar_sector x.
Proof. intros x. unfold scalar_sector. lia. Qed.

Theorem coordinate_sqr_operator : forall T0_min T0_max l ct, (T0_min <= 0 <= T0_max)%Z -> (forall x, In x l -> 0 <= r_L (snd x))%Z ->
  exists bs, construct_coordinate_sqr 0 0 T0_min T0_max l ct 0 = Ok bs /\ length bs = length l
  /\ forall q x, nth_error l q = Some x -> exists m, nth_error bs q = Some m
    /\ (~ scalar_sector x -> m = mzero (Num 0) (r_dim (fst x)) (r_dim (snd x)))
    /\ (scalar_sector x -> rows m = r_dim (snd x) /\ cols m = r_dim (snd x) /\
        forall i j, (i < r_dim (snd x))%nat -> (j < r_dim (snd x))%nat ->
        at_ m i j = nscale (match ct with KR => 2 | KK => 1 / 2 end)
          (coordinate_sqr (2 * Z.of_nat i + r_L (snd x)) (r_L (snd x)) (2 * Z.of_nat j + r_L (snd x)) (r_L (snd x))
            (match ct with KR => 1 | KK => -1 end))).
Proof.
  intros T0_min T0_max l ct HT Hl. unfold construct_coordinate_sqr. cbn [Z.eqb orb cassert bind].
  replace ((T0_min <=? 0)%Z && (0 <=? T0_max)%Z) with true by (symmetry; apply andb_true_intro; rewrite !Z.leb_le; exact HT). cbn [cassert bind].
  destruct (blocks_nth (coordinate_sqr_block ct 0) l) as (bs & E & L & N).
  { intros x Hx. destruct (scalar_dec x) as [Hs|Hs].
    - destruct (sqr_block ct x (Hl x Hx) Hs) as (m & E & _). exists m. exact E.
    - eexists. apply sqr_block_other. exact Hs. }
  exists bs. split; [exact E|]. split; [exact L|]. intros q x Hq. destruct (N q x Hq) as (m & Em & Ef). exists m. split; [exact Em|]. split.
  - intros Hs. rewrite sqr_block_other in Ef by exact Hs. injection Ef as <-. reflexivity.
  - intros Hs. destruct (sqr_block ct x (Hl x (nth_error_In _ _ Hq)) Hs) as (m' & E' & R & C & A). rewrite E' in Ef. injection Ef as <-. auto.
Qed.
Lemma sqr_diag : forall N l s, coordinate_sqr N l N l s = Num (IZR s * (IZR N + 3 / 2)).
Proof. intros. unfold coordinate_sqr. rewrite !Z.sub_diag. cbn [Z.eqb]. f_equal. field. Qed.

Theorem coordinate_sqr_diagonal : forall T0_min T0_max l ct q x i, (T0_min <= 0 <= T0_max)%Z -> (forall x, In x l -> 0 <= r_L (snd x))%Z ->
  nth_error l q = Some x -> scalar_sector x -> (i < r_dim (snd x))%nat ->
  exists bs m, construct_coordinate_sqr 0 0 T0_min T0_max l ct 0 = Ok bs /\ nth_error bs q = Some m
  /\ at_ m i i = Num (match ct with KR => 2 * (2 * INR i + IZR (r_L (snd x)) + 3 / 2)
                                  | KK => - (1 / 2 * (2 * INR i + IZR (r_L (snd x)) + 3 / 2)) end).
Proof.
  intros T0_min T0_max l ct q x i HT Hl Hq Hs Hi. destruct (coordinate_sqr_operator T0_min T0_max l ct HT Hl) as (bs & E & _ & N).
  destruct (N q x Hq) as (m & Em & _ & B). destruct (B Hs) as (_ & _ & A). exists bs, m. split; [exact E|]. split; [exact Em|].
  rewrite A by assumption. rewrite sqr_diag. cbn [nscale]. f_equal. rewrite plus_IZR, mult_IZR, <- INR_IZR_INZ. destruct ct; field.
Qed.

(** isovector component *)
Theorem coordinate_sqr_isovector : forall T0_min T0_max l ct, (T0_min <= 1 <= T0_max)%Z -> (forall x, In x l -> 0 <= r_L (snd x))%Z ->
  exists bs, construct_coordinate_sqr 0 0 T0_min T0_max l ct 1 = Ok bs /\ length bs = length l
  /\ forall q x, nth_error l q = Some x -> exists m, nth_error bs q = Some m
    /\ (~ scalar_sector x -> m = mzero (Num 0) (r_dim (fst x)) (r_dim (snd x)))
    /\ (scalar_sector x -> rows m = r_dim (snd x) /\ cols m = r_dim (snd x) /\
        forall i j, (i < r_dim (snd x))%nat -> (j < r_dim (snd x))%nat ->
        at_ m i j = nscale (2 * sqrt (IZR (r_T (snd x) * (r_T (snd x) + 1))) * match ct with KR => 2 | KK => 1 / 2 end)
          (coordinate_sqr (2 * Z.of_nat i + r_L (snd x)) (r_L (snd x)) (2 * Z.of_nat j + r_L (snd x)) (r_L (snd x))
            (match ct with KR => 1 | KK => -1 end))).
Proof.
  intros T0_min T0_max l ct HT Hl. unfold construct_coordinate_sqr. cbn [Z.eqb orb cassert bind]. change (Pos.eqb 1 1) with true. cbn [cassert bind].
  replace ((T0_min <=? 1)%Z && (1 <=? T0_max)%Z) with true by (symmetry; apply andb_true_intro; rewrite !Z.leb_le; exact HT). cbn [cassert bind].
  assert (B : forall x, (0 <= r_L (snd x))%Z -> scalar_sector x -> exists m, coordinate_sqr_block ct 1 x = Ok m /\ rows m = r_dim (snd x) /\ cols m = r_dim (snd x) /\
        forall i j, (i < r_dim (snd x))%nat -> (j < r_dim (snd x))%nat ->
        at_ m i j = nscale (2 * sqrt (IZR (r_T (snd x) * (r_T (snd x) + 1))) * match ct with KR => 2 | KK => 1 / 2 end)
          (coordinate_sqr (2 * Z.of_nat i + r_L (snd x)) (r_L (snd x)) (2 * Z.of_nat j + r_L (snd x)) (r_L (snd x))
            (match ct with KR => 1 | KK => -1 end))).
  { intros [b k] HL (E1 & E2 & E3). cbn [fst snd] in *. unfold coordinate_sqr_block. rewrite E1, E2, E3, !Z.eqb_refl. cbn [andb negb].
    destruct (radial_sqr_complete (r_dim k) (r_dim k) (r_L k) 0 (match ct with KR => 1 | KK => -1 end)%Z HL ltac:(lia) ltac:(lia)) as (m & E & R & C & A).
    rewrite E. cbn [bind]. eexists. split; [reflexivity|]. cbn [rows cols mat_scale at_].
    split; [exact R|]. split; [exact C|]. intros i j Hi Hj. rewrite A by assumption. rewrite Z.add_0_r, Rmult_1_l. reflexivity. }
  destruct (blocks_nth (coordinate_sqr_block ct 1) l) as (bs & E & L & N).
  { intros x Hx. destruct (scalar_dec x) as [Hs|Hs].
    - destruct (B x (Hl x Hx) Hs) as (m & E & _). exists m. exact E.
    - eexists. apply sqr_block_other. exact Hs. }
  exists bs. split; [exact E|]. split; [exact L|]. intros q x Hq. destruct (N q x Hq) as (m & Em & Ef). exists m. split; [exact Em|]. split.
  - intros Hs. rewrite sqr_block_other in Ef by exact Hs. injection Ef as <-. reflexivity.
  - intros Hs. destruct (B x (Hl x (nth_error_In _ _ Hq)) Hs) as (m' & E' & R & C & A). rewrite E' in Ef. injection Ef as <-. auto.
Qed.
Theorem coordinate_sqr_labels : forall J0 g0 T0_min T0_max l ct T0, J0 <> 0%Z \/ g0 <> 0%Z \/ ~ (T0 = 0 \/ T0 = 1)%Z \/ ~ (T0_min <= T0 <= T0_max)%Z ->
  construct_coordinate_sqr J0 g0 T0_min T0_max l ct T0 = AssertFail.
Proof.
  intros J0 g0 T0_min T0_max l ct T0 H. unfold construct_coordinate_sqr.
  destruct (Z.eqb_spec J0 0); [|reflexivity]. destruct (Z.eqb_spec g0 0); [|reflexivity]. cbn [cassert bind].
  destruct ((T0 =? 0)%Z || (T0 =? 1)%Z) eqn:E1; [|reflexivity]. cbn [cassert bind].
  destruct ((T0_min <=? T0)%Z && (T0 <=? T0_max)%Z) eqn:E2; [|reflexivity]. exfalso. rewrite orb_true_iff, !Z.eqb_eq in E1. rewrite andb_true_iff, !Z.leb_le in E2. lia.
Qed.
