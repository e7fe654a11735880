From Coq Require Import List ZArith Reals Lra Lia Bool Psatz.
From Verif Require Import Base BaseLemmas RMat OscModel OscSpec.
Import ListNotations.
Open Scope R_scope.

Definition rt (z : Z) : R := sqrt (IZR z).
Lemma fsqrt_rt : forall z, (0 <= z)%Z -> fsqrt z = Num (rt z).
Proof. intros z H. unfold fsqrt. destruct (Z.ltb_spec z 0); [lia|reflexivity]. Qed.
Lemma rt_mul : forall x y, (0 <= x)%Z -> rt x * rt y = rt (x * y).
Proof. intros x y H. unfold rt. rewrite mult_IZR, sqrt_mult_alt; [reflexivity|apply IZR_le; exact H]. Qed.
Lemma rt_sqr : forall x, (0 <= x)%Z -> rt x * rt x = IZR x.
Proof. intros x H. apply sqrt_sqrt. apply IZR_le. exact H. Qed.
Lemma rt_0 : rt 0 = 0.
Proof. apply sqrt_0. Qed.
Lemma rt_pos : forall x, (0 < x)%Z -> 0 < rt x.
Proof. intros x H. apply sqrt_lt_R0. apply IZR_lt. exact H. Qed.

Lemma ho_step_even : forall N l, ho N l -> exists m, (N = l + 2 * m /\ 0 <= m)%Z.
Proof.
  intros N l [H E]. apply Z.even_spec in E. destruct E as [m E]. exists m. lia.
Qed.
Lemma ho_intro : forall N l m, (0 <= l)%Z -> (0 <= m)%Z -> N = (l + 2 * m)%Z -> ho N l.
Proof. intros N l m H1 H2 ->. split; [lia|]. replace (l + 2 * m - l)%Z with (2 * m)%Z by lia. apply Z.even_spec. exists m. reflexivity. Qed.

Ltac zcase := repeat match goal with
  | |- context [Z.eqb ?a ?b] => destruct (Z.eqb_spec a b); try lia
  end.

(** values *)
Lemma cdagger_up : forall N l, ho N l -> cdagger (N + 1) (l + 1) N l = Num (rt (N + l + 3)).
Proof. intros N l H. destruct H as [H _]. unfold cdagger. zcase. apply fsqrt_rt. lia. Qed.
Lemma cdagger_down : forall N l, ho N l -> cdagger (N + 1) (l - 1) N l = Num (- rt (N - l + 2)).
Proof. intros N l [H _]. unfold cdagger. zcase. rewrite fsqrt_rt by lia. cbn. f_equal. ring. Qed.
Lemma clower_up : forall N l, ho N l -> clower (N - 1) (l + 1) N l = Num (- rt (N - l)).
Proof. intros N l [H _]. unfold clower. zcase. rewrite fsqrt_rt by lia. cbn. f_equal. ring. Qed.
Lemma clower_down : forall N l, ho N l -> clower (N - 1) (l - 1) N l = Num (rt (N + l + 1)).
Proof. intros N l [H _]. unfold clower. zcase. apply fsqrt_rt. lia. Qed.

Lemma cdagger_zero : forall bN bl kN kl, ~ (bN = kN + 1 /\ one_step kl bl)%Z -> cdagger bN bl kN kl = Num 0.
Proof. intros bN bl kN kl H. unfold one_step in H. unfold cdagger. zcase; reflexivity || (exfalso; apply H; lia). Qed.
Lemma clower_zero : forall bN bl kN kl, ~ (kN = bN + 1 /\ one_step kl bl)%Z -> clower bN bl kN kl = Num 0.
Proof. intros bN bl kN kl H. unfold one_step in H. unfold clower. zcase; reflexivity || (exfalso; apply H; lia). Qed.

Lemma one_step_dec : forall l l', one_step l l' \/ ~ one_step l l'.
Proof. intros. unfold one_step. lia. Qed.

Lemma adjoint : forall bN bl kN kl, ho bN bl -> ho kN kl -> cdagger bN bl kN kl = clower kN kl bN bl.
Proof.
  intros bN bl kN kl Hb Hk. destruct (Z.eq_dec bN (kN + 1)) as [->|Hne].
  - destruct (one_step_dec kl bl) as [[->| ->]|Hn].
    + rewrite cdagger_up by exact Hk. replace kN with (kN + 1 - 1)%Z at 2 by lia.
      replace (clower (kN + 1 - 1) kl (kN + 1) (kl + 1)) with (clower (kN + 1 - 1) (kl + 1 - 1) (kN + 1) (kl + 1))
        by (f_equal; lia).
      rewrite clower_down by exact Hb. f_equal. f_equal. lia.
    + rewrite cdagger_down by exact Hk. replace kN with (kN + 1 - 1)%Z at 2 by lia.
      replace (clower (kN + 1 - 1) kl (kN + 1) (kl - 1)) with (clower (kN + 1 - 1) (kl - 1 + 1) (kN + 1) (kl - 1))
        by (f_equal; lia).
      rewrite clower_up by exact Hb. f_equal. f_equal. f_equal. lia.
    + rewrite cdagger_zero by tauto. rewrite clower_zero; [reflexivity|]. unfold one_step in *. lia.
  - rewrite cdagger_zero by tauto. rewrite clower_zero; [reflexivity|]. lia.
Qed.
Lemma cdagger_num : forall bN bl kN kl, ho kN kl -> cdagger bN bl kN kl = Num (val (cdagger bN bl kN kl)).
Proof.
  intros bN bl kN kl Hk. destruct (Z.eq_dec bN (kN + 1)) as [->|Hne].
  - destruct (one_step_dec kl bl) as [[->| ->]|Hn].
    + rewrite cdagger_up by exact Hk. reflexivity.
    + rewrite cdagger_down by exact Hk. reflexivity.
    + rewrite cdagger_zero by tauto. reflexivity.
  - rewrite cdagger_zero by tauto. reflexivity.
Qed.
Lemma clower_num : forall bN bl kN kl, ho kN kl -> clower bN bl kN kl = Num (val (clower bN bl kN kl)).
Proof.
  intros bN bl kN kl Hk. destruct (Z.eq_dec kN (bN + 1)) as [->|Hne].
  - replace bN with (bN + 1 - 1)%Z by lia. replace (bN + 1 - 1 + 1)%Z with (bN + 1)%Z by lia.
    destruct (one_step_dec kl bl) as [[->| ->]|Hn].
    + rewrite clower_up by exact Hk. reflexivity.
    + rewrite clower_down by exact Hk. reflexivity.
    + rewrite clower_zero by tauto. reflexivity.
  - rewrite clower_zero by tauto. reflexivity.
Qed.
Lemma cdagger_nonzero : forall kN kl bl, ho kN kl -> one_step kl bl -> val (cdagger (kN + 1) bl kN kl) <> 0.
Proof.
  intros kN kl bl Hk [->| ->].
  - rewrite cdagger_up by exact Hk. destruct Hk as [Hk _]. pose proof (rt_pos (kN + kl + 3)). cbn. intros E. rewrite E in H. lia || (assert (0 < 0) by (apply H; lia); lra).
  - rewrite cdagger_down by exact Hk. destruct Hk as [Hk _]. pose proof (rt_pos (kN - kl + 2)). cbn. intros E.
    assert (0 < rt (kN - kl + 2)) by (apply H; lia). lra.
Qed.

Theorem ladder : forall bN bl kN kl, ho bN bl -> ho kN kl ->
  (exists x, cdagger bN bl kN kl = Num x /\ clower kN kl bN bl = Num x
     /\ (x <> 0 <-> (bN = kN + 1)%Z /\ one_step kl bl)).
Proof.
  intros bN bl kN kl Hb Hk. exists (val (cdagger bN bl kN kl)). split; [apply cdagger_num; exact Hk|].
  split; [rewrite <- adjoint by assumption; apply cdagger_num; exact Hk|]. split.
  - intros Hne. destruct (Z.eq_dec bN (kN + 1)) as [E|E]; [|rewrite cdagger_zero in Hne by tauto; elim Hne; reflexivity].
    destruct (one_step_dec kl bl) as [Hs|Hs]; [tauto|]. rewrite cdagger_zero in Hne by tauto. elim Hne; reflexivity.
  - intros [-> Hs]. apply cdagger_nonzero; assumption.
Qed.
Theorem ladder_zero : forall bN bl kN kl, 
  (~ (bN = kN + 1 /\ one_step kl bl)%Z -> cdagger bN bl kN kl = Num 0)
  /\ (~ (kN = bN + 1 /\ one_step kl bl)%Z -> clower bN bl kN kl = Num 0).
Proof. intros. split; [apply cdagger_zero|apply clower_zero]. Qed.

(** ** C27 *)
Lemma k_close : Rabs (k_sqrt_2 - sqrt 2) <= / 1000000000000000.
Proof.
  assert (Hlo : k_sqrt_2 <= sqrt 2).
  { unfold k_sqrt_2. rewrite <- (sqrt_square (1414213562373095 / 1000000000000000)) by lra. apply sqrt_le_1_alt. lra. }
  assert (Hhi : sqrt 2 <= k_sqrt_2 + / 1000000000000000).
  { unfold k_sqrt_2. rewrite <- (sqrt_square (1414213562373095 / 1000000000000000 + / 1000000000000000)) by lra.
    apply sqrt_le_1_alt. lra. }
  apply Rabs_le. lra.
Qed.
Lemma k_pos : 0 < k_sqrt_2.
Proof. unfold k_sqrt_2. lra. Qed.
Lemma coordinate_num : forall bN bl kN kl s, ho kN kl -> one_step kl bl ->
  coordinate bN bl kN kl s = Ok (Num ((IZR s * val (cdagger bN bl kN kl) + val (clower bN bl kN kl)) / k_sqrt_2)).
Proof.
  intros bN bl kN kl s Hk Hs. unfold coordinate.
  replace ((bl - kl =? -1)%Z || (bl - kl =? 1)%Z) with true
    by (destruct Hs as [->| ->]; zcase; reflexivity).
  cbn [cassert bind]. rewrite (cdagger_num bN bl kN kl Hk) at 1. rewrite (clower_num bN bl kN kl Hk) at 1. cbn. f_equal. f_equal.
  field. unfold k_sqrt_2; lra.
Qed.
Lemma coordinate_assert : forall bN bl kN kl s, ~ one_step kl bl -> coordinate bN bl kN kl s = AssertFail.
Proof. intros bN bl kN kl s Hs. unfold coordinate, one_step in *. zcase; cbn; reflexivity || (exfalso; lia). Qed.

Theorem coordinate_sum : forall bN bl kN kl, ho bN bl -> ho kN kl -> one_step kl bl ->
  exists u d, cdagger bN bl kN kl = Num u /\ clower bN bl kN kl = Num d
  /\ coordinate bN bl kN kl 1 = Ok (Num ((u + d) / k_sqrt_2))
  /\ coordinate bN bl kN kl (-1) = Ok (Num ((d - u) / k_sqrt_2)).
Proof.
  intros bN bl kN kl Hb Hk Hs. exists (val (cdagger bN bl kN kl)), (val (clower bN bl kN kl)).
  split; [apply cdagger_num; exact Hk|]. split; [apply clower_num; exact Hk|].
  rewrite !coordinate_num by assumption. split; f_equal; f_equal; field; unfold k_sqrt_2; lra.
Qed.
Lemma one_step_sym : forall a b, one_step a b -> one_step b a.
Proof. unfold one_step. lia. Qed.
Theorem coordinate_symmetric : forall bN bl kN kl, ho bN bl -> ho kN kl -> one_step kl bl ->
  coordinate bN bl kN kl 1 = coordinate kN kl bN bl 1
  /\ oval (coordinate bN bl kN kl (-1)) = - oval (coordinate kN kl bN bl (-1)).
Proof.
  intros bN bl kN kl Hb Hk Hs. pose proof (one_step_sym _ _ Hs) as Hs'. rewrite !coordinate_num by assumption.
  rewrite (adjoint bN bl kN kl), (adjoint kN kl bN bl) by assumption. cbn. split; [f_equal; f_equal; f_equal; ring|].
  field. unfold k_sqrt_2; lra.
Qed.

(** ** C28 *)
Lemma lsum_two : forall (l : list Z) a b (f : Z -> R), NoDup l -> a <> b ->
  (forall x, In x l -> x <> a -> x <> b -> f x = 0) -> (~ In a l -> f a = 0) -> (~ In b l -> f b = 0) -> lsum l f = f a + f b.
Proof.
  intros l a b f Hn Hab H Ha Hb.
  assert (E : lsum l f = lsum l (fun x => if Z.eq_dec x a then f a else 0) + lsum l (fun x => if Z.eq_dec x b then f b else 0)).
  { rewrite <- lsum_plus. apply lsum_ext. intros x Hx. destruct (Z.eq_dec x a) as [->|Hna].
    - destruct (Z.eq_dec a b); [contradiction|ring].
    - destruct (Z.eq_dec x b) as [->|Hnb]; [ring|rewrite H by assumption; ring]. }
  assert (P : forall c, (~ In c l -> f c = 0) -> lsum l (fun x => if Z.eq_dec x c then f c else 0) = f c).
  { intros c Hc. destruct (in_dec Z.eq_dec c l) as [Hin|Hnin].
    - rewrite (lsum_one Z Z.eq_dec l c); [destruct (Z.eq_dec c c); [reflexivity|congruence]|assumption|assumption|].
      intros x _ Hx. destruct (Z.eq_dec x c); [contradiction|reflexivity].
    - rewrite lsum_0; [symmetry; apply Hc; exact Hnin|]. intros x Hx. destruct (Z.eq_dec x c) as [->|]; [contradiction|reflexivity]. }
  rewrite E, !P by assumption. reflexivity.
Qed.

Definition prod_r (bN bl N li kN kl s : Z) : R := oval (coordinate bN bl N li s) * oval (coordinate N li kN kl s).
Lemma ho_mid : forall kN kl li, ho kN kl -> (0 <= li)%Z -> one_step kl li -> ho (kN + 1) li /\ (ho (kN - 1) li \/ (kN = kl /\ li = kl + 1)%Z).
Proof.
  intros kN kl li Hk Hl Hs. destruct (ho_step_even _ _ Hk) as [m [-> Hm]]. destruct Hk as [Hk _]. destruct Hs as [-> | ->].
  - split; [apply (ho_intro _ _ m); lia|]. destruct (Z.eq_dec m 0) as [->|Hz]; [right; lia|left; apply (ho_intro _ _ (m - 1)); lia].
  - split; [apply (ho_intro _ _ (m + 1)); lia|]. left. apply (ho_intro _ _ m); lia.
Qed.

Lemma mid_sum : forall bN bl kN kl li s Ns, ho kN kl -> (0 <= li)%Z -> one_step kl li -> states_up_to (kN + 1) li Ns ->
  lsum Ns (fun N => prod_r bN bl N li kN kl s) = prod_r bN bl (kN - 1) li kN kl s + prod_r bN bl (kN + 1) li kN kl s.
Proof.
  intros bN bl kN kl li s Ns Hk Hl Hs (Hn & Hho & Hall). destruct (ho_mid _ _ _ Hk Hl Hs) as [Hp Hm].
  apply (lsum_two Ns (kN - 1) (kN + 1)); [exact Hn|lia| | |].
  - intros N _ H1 H2. unfold prod_r. rewrite (coordinate_num N li kN kl) by assumption.
    rewrite cdagger_zero, clower_zero by lia. cbn. unfold Rdiv. rewrite Rmult_0_r, Rplus_0_l, Rmult_0_l. apply Rmult_0_r.
  - intros Hni. destruct Hm as [Hm|[E1 E2]]; [elim Hni; apply Hall; [exact Hm|lia]|]. subst li. subst kN.
    unfold prod_r. rewrite (coordinate_num (kl - 1) (kl + 1) kl kl) by assumption.
    rewrite cdagger_zero by lia. rewrite clower_up by exact Hk. rewrite Z.sub_diag, rt_0. cbn. unfold Rdiv. ring.
  - intros Hni. elim Hni. apply Hall; [exact Hp|lia].
Qed.

Lemma sqr_val_0 : forall bN bl kN kl s, (bN - kN <> 2)%Z -> (bN - kN <> 0)%Z -> (bN - kN <> -2)%Z -> coordinate_sqr bN bl kN kl s = Num 0.
Proof. intros. unfold coordinate_sqr. zcase. reflexivity. Qed.

(** the four elements of r out of one state *)
Lemma r_uu : forall N l s, ho N l -> oval (coordinate (N + 1) (l + 1) N l s) = IZR s * rt (N + l + 3) / k_sqrt_2.
Proof.
  intros N l s H. rewrite coordinate_num by (try exact H; left; reflexivity). rewrite cdagger_up by exact H.
  rewrite clower_zero by lia. cbn. unfold Rdiv. ring.
Qed.
Lemma r_ud : forall N l s, ho N l -> oval (coordinate (N + 1) (l - 1) N l s) = - (IZR s * rt (N - l + 2)) / k_sqrt_2.
Proof.
  intros N l s H. rewrite coordinate_num by (try exact H; right; reflexivity). rewrite cdagger_down by exact H.
  rewrite clower_zero by lia. cbn. unfold Rdiv. ring.
Qed.
Lemma r_du : forall N l s, ho N l -> oval (coordinate (N - 1) (l + 1) N l s) = - rt (N - l) / k_sqrt_2.
Proof.
  intros N l s H. rewrite coordinate_num by (try exact H; left; reflexivity). rewrite clower_up by exact H.
  rewrite cdagger_zero by lia. cbn. unfold Rdiv. ring.
Qed.
Lemma r_dd : forall N l s, ho N l -> oval (coordinate (N - 1) (l - 1) N l s) = rt (N + l + 1) / k_sqrt_2.
Proof.
  intros N l s H. rewrite coordinate_num by (try exact H; right; reflexivity). rewrite clower_down by exact H.
  rewrite cdagger_zero by lia. cbn. unfold Rdiv. ring.
Qed.
Lemma r_none : forall bN bl N l s, ho N l -> one_step l bl -> (bN <> N + 1)%Z -> (N <> bN + 1)%Z -> oval (coordinate bN bl N l s) = 0.
Proof.
  intros bN bl N l s H Hs H1 H2. rewrite coordinate_num by assumption. rewrite cdagger_zero, clower_zero by lia. cbn. unfold Rdiv. ring.
Qed.

Lemma sign_sqr : forall s, sign_ok s -> IZR s * IZR s = 1.
Proof. intros s [->| ->]; lra. Qed.

Lemma k_ne : k_sqrt_2 <> 0.
Proof. pose proof k_pos. lra. Qed.

Lemma dN_cases : forall bN kN : Z, bN = (kN + 2)%Z \/ bN = kN \/ bN = (kN - 2)%Z \/ (bN <> kN + 2 /\ bN <> kN /\ bN <> kN - 2)%Z.
Proof. intros. lia. Qed.

Lemma sqr_factor : forall x y, k_sqrt_2 * k_sqrt_2 / 2 * (x / k_sqrt_2 * (y / k_sqrt_2)) = x * y / 2.
Proof. intros. field. apply k_ne. Qed.

(** the step down in quanta is absent (zero) from the lowest state when l increases *)
Lemma low_edge : forall kl s, ho kl kl -> oval (coordinate (kl - 1) (kl + 1) kl kl s) = 0.
Proof. intros kl s H. rewrite r_du by exact H. rewrite Z.sub_diag, rt_0. unfold Rdiv. ring. Qed.

Ltac root2 := match goal with |- ?c * rt ?P = ?R => match R with context [rt ?x] => match R with context [rt ?y] =>
  replace (rt P) with (rt x * rt y) by (rewrite rt_mul by lia; f_equal; ring) end end end.

Theorem sqr_product : forall bN bl kN kl li s Ns, ho bN bl -> ho kN kl -> sign_ok s -> (0 <= li)%Z -> one_step kl li -> one_step li bl ->
  states_up_to (kN + 1) li Ns ->
  coordinate_sqr bN bl kN kl s = Num (k_sqrt_2 * k_sqrt_2 / 2 *
    lsum Ns (fun N => oval (coordinate bN bl N li s) * oval (coordinate N li kN kl s))).
Proof.
  intros bN bl kN kl li s Ns Hb Hk Hsg Hl H1 H2 Hns.
  change (fun N => oval (coordinate bN bl N li s) * oval (coordinate N li kN kl s)) with (fun N => prod_r bN bl N li kN kl s).
  rewrite (mid_sum bN bl kN kl li s Ns Hk Hl H1 Hns). unfold prod_r.
  destruct (ho_mid _ _ _ Hk Hl H1) as [Hp Hm].
  rewrite Rmult_plus_distr_l.
  assert (Hkz : (0 <= kl <= kN)%Z) by (destruct Hk; assumption).
  assert (Hbz : (0 <= bl <= bN)%Z) by (destruct Hb; assumption).
  destruct (dN_cases bN kN) as [E|[E|[E|E]]].
  - (* two quanta up *) subst bN.
    assert (Z0 : oval (coordinate (kN + 2) bl (kN - 1) li s) * oval (coordinate (kN - 1) li kN kl s) = 0).
    { destruct Hm as [Hm|[-> ->]]; [rewrite (r_none _ bl (kN - 1) li) by (assumption || lia); ring|rewrite low_edge by exact Hk; ring]. }
    rewrite Z0. rewrite Rmult_0_r, Rplus_0_l.
    replace (kN + 2)%Z with (kN + 1 + 1)%Z by lia.
    destruct H1 as [->| ->]; destruct H2 as [->| ->]; rewrite ?r_uu, ?r_ud by assumption; rewrite sqr_factor;
      unfold coordinate_sqr; zcase; rewrite fsqrt_rt by nia; cbn [nscale]; f_equal; root2; destruct Hsg as [->| ->]; field.
  - (* no change *) subst bN.
    destruct Hm as [Hm|[E1 E2]].
    + assert (P1 : oval (coordinate kN bl (kN - 1) li s) = oval (coordinate (kN - 1 + 1) bl (kN - 1) li s)) by (f_equal; f_equal; lia).
      assert (P2 : oval (coordinate kN bl (kN + 1) li s) = oval (coordinate (kN + 1 - 1) bl (kN + 1) li s)) by (f_equal; f_equal; lia).
      rewrite P1, P2.
      destruct H1 as [->| ->]; destruct H2 as [->| ->]; rewrite ?r_uu, ?r_ud, ?r_du, ?r_dd by assumption; rewrite !sqr_factor;
      unfold coordinate_sqr; zcase; rewrite ?fsqrt_rt by nia; cbn [nscale]; f_equal.
      * replace (kN - 1 + (kl + 1) + 3)%Z with (kN + kl + 3)%Z by lia. replace (kN + 1 - (kl + 1))%Z with (kN - kl)%Z by lia.
        rewrite <- rt_mul by lia. field.
      * replace (kN - 1 - (kl + 1) + 2)%Z with (kN - kl)%Z by lia. replace (kN + 1 + (kl + 1) + 1)%Z with (kN + kl + 3)%Z by lia.
        transitivity (IZR s * (rt (kN - kl) * rt (kN - kl)) / 2 + IZR s * (rt (kN + kl + 3) * rt (kN + kl + 3)) / 2); [|field].
        rewrite !rt_sqr by lia. rewrite !plus_IZR, minus_IZR. field.
      * replace (kN - 1 + (kl - 1) + 3)%Z with (kN + kl + 1)%Z by lia. replace (kN + 1 - (kl - 1))%Z with (kN - kl + 2)%Z by lia.
        transitivity (IZR s * (rt (kN + kl + 1) * rt (kN + kl + 1)) / 2 + IZR s * (rt (kN - kl + 2) * rt (kN - kl + 2)) / 2); [|field].
        rewrite !rt_sqr by lia. rewrite !plus_IZR, minus_IZR. field.
      * replace (kN - 1 - (kl - 1) + 2)%Z with (kN - kl + 2)%Z by lia. replace (kN + 1 + (kl - 1) + 1)%Z with (kN + kl + 1)%Z by lia.
        rewrite <- rt_mul by lia. field.
    + subst kN li. rewrite low_edge by exact Hk. rewrite Rmult_0_r, Rmult_0_r, Rplus_0_l.
      destruct H2 as [->| ->]; [lia|].
      assert (P2 : oval (coordinate kl (kl + 1 - 1) (kl + 1) (kl + 1) s) = oval (coordinate (kl + 1 - 1) (kl + 1 - 1) (kl + 1) (kl + 1) s))
        by (f_equal; f_equal; lia).
      rewrite P2, r_dd, r_uu by assumption. rewrite sqr_factor. unfold coordinate_sqr; zcase. f_equal.
      replace (kl + 1 + (kl + 1) + 1)%Z with (kl + kl + 3)%Z by lia.
      transitivity (IZR s * (rt (kl + kl + 3) * rt (kl + kl + 3)) / 2); [|field].
      rewrite rt_sqr by lia. rewrite !plus_IZR. field.
  - (* two quanta down *) subst bN.
    rewrite (r_none (kN - 2) bl (kN + 1) li) by (assumption || lia). rewrite Rmult_0_l, Rmult_0_r, Rplus_0_r.
    destruct Hm as [Hm|[E1 E2]]; [|subst kN li; destruct H2 as [->| ->]; lia].
    assert (P1 : oval (coordinate (kN - 2) bl (kN - 1) li s) = oval (coordinate (kN - 1 - 1) bl (kN - 1) li s)) by (f_equal; f_equal; lia).
    rewrite P1. pose proof Hm as Hm'. destruct Hm' as [Hmz _].
    destruct H1 as [->| ->]; destruct H2 as [->| ->]; rewrite ?r_du, ?r_dd by assumption; rewrite !sqr_factor;
      unfold coordinate_sqr; zcase; rewrite ?fsqrt_rt by nia; cbn [nscale]; f_equal; root2; field.
  - (* other changes *)
    rewrite sqr_val_0 by lia.
    rewrite (r_none bN bl (kN + 1) li) by (assumption || lia). rewrite Rmult_0_l, Rmult_0_r, Rplus_0_r.
    destruct Hm as [Hm|[E1 E2]].
    + rewrite (r_none bN bl (kN - 1) li) by (assumption || lia). f_equal. ring.
    + subst kN li. rewrite low_edge by exact Hk. f_equal. ring.
Qed.
