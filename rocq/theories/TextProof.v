(** Proofs about TextModel.v. *)
From Coq Require Import ZArith List Bool Lia.
From Verif Require Import Base TextModel.
Import ListNotations.
Open Scope Z_scope.

Lemma nearest_close : forall a b, 0 < b -> 2 * Z.abs (a - nearest a b * b) <= b.
Proof.
  intros a b Hb. unfold nearest.
  pose proof (Z.div_mod a b ltac:(lia)) as Hd. pose proof (Z.mod_pos_bound a b Hb) as Hr.
  remember (a / b) as q. remember (a mod b) as r. subst a. clear Heqq Heqr.
  destruct (2 * r <? b) eqn:E1.
  - apply Z.ltb_lt in E1. lia.
  - apply Z.ltb_ge in E1. destruct (b <? 2 * r) eqn:E2.
    + apply Z.ltb_lt in E2. lia.
    + apply Z.ltb_ge in E2. destruct (Z.even q); lia.
Qed.

Lemma up_pos : forall e, 0 < up e.
Proof. intro e. unfold up. apply Z.pow_pos_nonneg; lia. Qed.

Lemma down_pos : forall e, 0 < down e.
Proof.
  intro e. unfold down. apply Z.mul_pos_pos; [reflexivity|]. apply Z.pow_pos_nonneg; lia.
Qed.

(** the two scalings of neighbouring exponents *)
Lemma next_scale : forall e,
  (up e = 10 * up (e + 1) /\ down (e + 1) = down e)
  \/ (up e = up (e + 1) /\ down (e + 1) = 10 * down e).
Proof.
  intro e. unfold up, down. destruct (Z_lt_ge_dec e 7) as [H | H].
  - left. rewrite (Z.max_l (7 - e) 0), (Z.max_l (7 - (e + 1)) 0), (Z.max_r (e + 1 - 7) 0), (Z.max_r (e - 7) 0) by lia.
    split; [|reflexivity]. replace (7 - e) with (Z.succ (7 - (e + 1))) by lia. apply Z.pow_succ_r. lia.
  - right. rewrite (Z.max_r (7 - e) 0), (Z.max_r (7 - (e + 1)) 0), (Z.max_l (e + 1 - 7) 0), (Z.max_l (e - 7) 0) by lia.
    split; [reflexivity|]. replace (e + 1 - 7) with (Z.succ (e - 7)) by lia. rewrite Z.pow_succ_r by lia. ring.
Qed.

Lemma scale_up : forall m e,
  10 ^ 8 * down e <= m * up e <-> 10 ^ 7 * down (e + 1) <= m * up (e + 1).
Proof.
  intros m e. change (10 ^ 8) with (10 * 10 ^ 7). remember (10 ^ 7) as t. clear Heqt.
  destruct (next_scale e) as [[H1 H2] | [H1 H2]]; rewrite H1, H2; split; intro H; nia.
Qed.

Definition over (m e : Z) : bool := 10 ^ 7 * down e <=? m * up e.

Lemma crossing : forall m k a,
  over m a = true -> over m (a + Z.of_nat k) = false ->
  exists e, find (fun e => (10 ^ 7 * down e <=? m * up e) && (m * up e <? 10 ^ 8 * down e))
    (map (fun i => Z.of_nat i + a) (seq 0 k)) = Some e.
Proof.
  intros m k. induction k as [|k IH]; intros a H1 H2.
  - rewrite Z.add_0_r in H2. congruence.
  - cbn [seq map find]. change (Z.of_nat 0 + a) with a.
    destruct ((10 ^ 7 * down a <=? m * up a) && (m * up a <? 10 ^ 8 * down a)) eqn:E; [eauto|].
    unfold over in H1. rewrite H1 in E. cbn [andb] in E. apply Z.ltb_ge in E.
    destruct (IH (a + 1)) as [e He].
    + unfold over. apply Z.leb_le. apply scale_up. exact E.
    + replace (a + 1 + Z.of_nat k) with (a + Z.of_nat (S k)) by lia. exact H2.
    + exists e. rewrite <- He. f_equal. rewrite <- seq_shift, map_map. apply map_ext. intro i. lia.
Qed.

Lemma exponent_found : forall m, 0 < m < 2 ^ 277 -> exists e, dec_exponent m = Some e.
Proof.
  intros m H. unfold dec_exponent, exponents.
  destruct (crossing m 84 (-45)) as [e He].
  - unfold over. apply Z.leb_le.
    apply Z.le_trans with (1 * up (-45)); [vm_compute; discriminate|].
    apply Z.mul_le_mono_nonneg_r; [vm_compute; discriminate | lia].
  - unfold over. apply Z.leb_gt. change (-45 + Z.of_nat 84) with 39.
    apply Z.lt_le_trans with (2 ^ 277 * up 39); [|vm_compute; discriminate].
    apply Z.mul_lt_mono_pos_r; [reflexivity | lia].
  - exists e. rewrite <- He. reflexivity.
Qed.

Lemma exponent_found_iff : forall m e, dec_exponent m = Some e ->
  10 ^ 7 * down e <= m * up e < 10 ^ 8 * down e /\ -45 <= e <= 38.
Proof.
  intros m e H. unfold dec_exponent in H. apply find_some in H. destruct H as [Hin H].
  apply andb_prop in H. destruct H as [H1 H2]. apply Z.leb_le in H1. apply Z.ltb_lt in H2.
  split; [split; assumption|]. unfold exponents in Hin. apply in_map_iff in Hin.
  destruct Hin as [i [Hi Hs]]. apply in_seq in Hs. lia.
Qed.

Lemma f_fields : forall x, is_float x -> 0 <= f_exp x < 256 /\ 0 <= f_man x < 2 ^ 23.
Proof.
  intros x H. unfold f_exp, f_man. split; apply Z.mod_pos_bound; reflexivity.
Qed.

Lemma f_mag_nonneg : forall x, is_float x -> 0 <= f_mag x.
Proof.
  intros x H. destruct (f_fields x H) as [He Hm]. unfold f_mag.
  destruct (f_exp x =? 0); [lia|].
  apply Z.mul_nonneg_nonneg; [|apply Z.pow_nonneg; lia].
  assert (0 < 2 ^ 23) by reflexivity. lia.
Qed.

Lemma f_mag_bound : forall x, is_float x -> f_finite x = true -> f_mag x < 2 ^ 277.
Proof.
  intros x H Hf. destruct (f_fields x H) as [He Hm]. unfold f_finite in Hf.
  apply negb_true_iff, Z.eqb_neq in Hf. unfold f_mag.
  destruct (f_exp x =? 0) eqn:E0.
  - apply Z.lt_trans with (2 ^ 23); [lia | reflexivity].
  - apply Z.eqb_neq in E0.
    change (2 ^ 277) with (2 ^ 24 * 2 ^ 253).
    apply Z.lt_le_trans with (2 ^ 24 * 2 ^ (f_exp x - 1)).
    + apply Z.mul_lt_mono_pos_r; [apply Z.pow_pos_nonneg; lia|].
      change (2 ^ 24) with (2 ^ 23 + 2 ^ 23). lia.
    + apply Z.mul_le_mono_nonneg_l; [vm_compute; discriminate|]. apply Z.pow_le_mono_r; lia.
Qed.

Lemma dec_exponent_zero : dec_exponent 0 = None.
Proof. vm_compute. reflexivity. Qed.

Lemma printed_zero : forall x, f_finite x = true -> f_mag x = 0 -> printed x = PNum (f_sign x) 0 0.
Proof. intros x Hf H0. unfold printed. rewrite Hf, H0, dec_exponent_zero. reflexivity. Qed.

(** eight digits, off by at most half of the last one *)
Lemma printed_digits : forall x, is_float x -> f_finite x = true -> f_mag x <> 0 ->
  exists d e, printed x = PNum (f_sign x) d e /\ 10 ^ 7 <= d < 10 ^ 8
  /\ 2 * Z.abs (f_mag x * up e - d * down e) <= down e.
Proof.
  intros x Hx Hf H0. pose proof (f_mag_nonneg x Hx) as Hn. pose proof (f_mag_bound x Hx Hf) as Hb.
  destruct (exponent_found (f_mag x) ltac:(lia)) as [e He].
  destruct (exponent_found_iff _ _ He) as [[Hlo Hhi] _].
  unfold printed. rewrite Hf, He. clear Hb He.
  pose proof (down_pos e) as Hd. pose proof (up_pos e) as Hu.
  pose proof (nearest_close (f_mag x * up e) (down e) Hd) as Hc.
  remember (nearest (f_mag x * up e) (down e)) as d. clear Heqd.
  assert (Hrange : 10 ^ 7 <= d <= 10 ^ 8).
  { remember (10 ^ 7) as t. remember (10 ^ 8) as t8. remember (f_mag x * up e) as v.
    clear - Hd Hc Hlo Hhi. split; nia. }
  destruct (d =? 10 ^ 8) eqn:E.
  - apply Z.eqb_eq in E. exists (10 ^ 7), (e + 1). split; [reflexivity|]. split; [split; [lia | reflexivity]|].
    subst d. change (10 ^ 8) with (10 * 10 ^ 7) in Hc. remember (10 ^ 7) as t. clear Heqt Hrange Hlo Hhi.
    destruct (next_scale e) as [[H1 H2] | [H1 H2]]; rewrite H2.
    + rewrite H1 in Hc. nia.
    + rewrite H1 in Hc. remember (f_mag x * up (e + 1)) as v. nia.
  - apply Z.eqb_neq in E. exists d, e. split; [reflexivity|]. split; [lia | exact Hc].
Qed.

(** a value exactly between two neighbouring integers goes to the even one *)
Lemma nearest_even : forall a b, 0 < b -> 2 * Z.abs (a - nearest a b * b) = b -> Z.Even (nearest a b).
Proof.
  intros a b Hb. unfold nearest.
  pose proof (Z.div_mod a b ltac:(lia)) as Hd. pose proof (Z.mod_pos_bound a b Hb) as Hr.
  remember (a / b) as q. remember (a mod b) as r. subst a. clear Heqq Heqr.
  destruct (2 * r <? b) eqn:E1.
  - apply Z.ltb_lt in E1. lia.
  - apply Z.ltb_ge in E1. destruct (b <? 2 * r) eqn:E2.
    + apply Z.ltb_lt in E2. lia.
    + intros _. destruct (Z.even q) eqn:Eq.
      * apply Z.even_spec. exact Eq.
      * apply Z.even_spec. rewrite Z.even_add, Eq. reflexivity.
Qed.

Lemma printed_ties : forall x d e, is_float x -> f_finite x = true -> f_mag x <> 0 ->
  printed x = PNum (f_sign x) d e ->
  2 * Z.abs (f_mag x * up e - d * down e) = down e -> Z.Even d.
Proof.
  intros x d e Hx Hf H0 Hp Ht. unfold printed in Hp. rewrite Hf in Hp.
  pose proof (f_mag_nonneg x Hx) as Hn. pose proof (f_mag_bound x Hx Hf) as Hb.
  destruct (exponent_found (f_mag x) ltac:(lia)) as [e' He]. rewrite He in Hp. cbv zeta in Hp.
  destruct (nearest (f_mag x * up e') (down e') =? 10 ^ 8) eqn:E.
  - injection Hp as Hd _. rewrite <- Hd. exists (5 * 10 ^ 6). reflexivity.
  - injection Hp as Hd Hee. subst e' d. apply nearest_even; [apply down_pos | exact Ht].
Qed.

Lemma printed_special : forall x, f_finite x = false ->
  printed x = if f_man x =? 0 then PInf (f_sign x) else PNan (f_sign x).
Proof. intros x H. unfold printed. rewrite H. reflexivity. Qed.

Lemma printed_special_cases : forall x, f_exp x = 255 ->
  (f_man x = 0 -> printed x = PInf (f_sign x)) /\ (f_man x <> 0 -> printed x = PNan (f_sign x)).
Proof.
  intros x H. assert (Hf : f_finite x = false) by (unfold f_finite; rewrite H; reflexivity).
  rewrite (printed_special x Hf). split; intro Hm.
  - apply Z.eqb_eq in Hm. rewrite Hm. reflexivity.
  - apply Z.eqb_neq in Hm. rewrite Hm. reflexivity.
Qed.

(** the magnitude determines exponent and mantissa *)
Definition f_unit (x : Z) : Z := 2 ^ Z.max (f_exp x - 1) 0.

Lemma f_unit_pos : forall x, 0 < f_unit x.
Proof. intro x. unfold f_unit. apply Z.pow_pos_nonneg; lia. Qed.

Definition f_sig (x : Z) : Z := if f_exp x =? 0 then f_man x else f_man x + 2 ^ 23.

Lemma f_mag_sig : forall x, is_float x -> f_mag x = f_sig x * f_unit x.
Proof.
  intros x H. destruct (f_fields x H) as [He _]. unfold f_mag, f_sig, f_unit.
  destruct (f_exp x =? 0) eqn:E.
  - apply Z.eqb_eq in E. rewrite E. change (2 ^ Z.max (0 - 1) 0) with 1. ring.
  - apply Z.eqb_neq in E. rewrite Z.max_l by lia. reflexivity.
Qed.

Lemma f_sig_bound : forall x, is_float x -> 0 <= f_sig x < 2 ^ 24.
Proof.
  intros x H. destruct (f_fields x H) as [_ Hm]. unfold f_sig. change (2 ^ 24) with (2 ^ 23 + 2 ^ 23).
  destruct (f_exp x =? 0); lia.
Qed.

Lemma f_sig_normal : forall x, is_float x -> f_exp x <> 0 -> 2 ^ 23 <= f_sig x.
Proof.
  intros x H Hn. destruct (f_fields x H) as [_ Hm]. unfold f_sig. apply Z.eqb_neq in Hn. rewrite Hn. lia.
Qed.

(** two floats of different units: the one of larger unit is a normal number at least
    2^23 units, the other is below *)
Lemma unit_order : forall x y, is_float x -> is_float y -> f_unit x < f_unit y ->
  2 * f_unit x <= f_unit y /\ (exists k, f_unit y = k * f_unit x) /\ 2 ^ 23 <= f_sig y /\ f_mag x < 2 ^ 24 * f_unit x.
Proof.
  intros x y Hx Hy H.
  destruct (f_fields x Hx) as [Hex _]. destruct (f_fields y Hy) as [Hey _].
  pose proof (f_sig_bound x Hx) as Hs.
  assert (Hlt : Z.max (f_exp x - 1) 0 < Z.max (f_exp y - 1) 0).
  { unfold f_unit in H. destruct (Z_lt_ge_dec (Z.max (f_exp x - 1) 0) (Z.max (f_exp y - 1) 0)) as [L | G]; [exact L|].
    assert (2 ^ Z.max (f_exp y - 1) 0 <= 2 ^ Z.max (f_exp x - 1) 0) by (apply Z.pow_le_mono_r; lia). lia. }
  assert (Hk : f_unit y = 2 ^ (Z.max (f_exp y - 1) 0 - Z.max (f_exp x - 1) 0) * f_unit x).
  { unfold f_unit. rewrite <- Z.pow_add_r by lia. f_equal. lia. }
  split; [|split; [|split]].
  - rewrite Hk. apply Z.mul_le_mono_nonneg_r; [pose proof (f_unit_pos x); lia|].
    change 2 with (2 ^ 1) at 1. apply Z.pow_le_mono_r; lia.
  - eexists. exact Hk.
  - apply f_sig_normal; [exact Hy | lia].
  - rewrite (f_mag_sig x Hx). apply Z.mul_lt_mono_pos_r; [apply f_unit_pos | lia].
Qed.

Lemma mag_inj : forall x y, is_float x -> is_float y -> f_mag x = f_mag y ->
  f_exp x = f_exp y /\ f_man x = f_man y.
Proof.
  intros x y Hx Hy H.
  assert (Hu : f_unit x = f_unit y).
  { destruct (Z.lt_trichotomy (f_unit x) (f_unit y)) as [L | [Q | L]]; [|exact Q|].
    - destruct (unit_order x y Hx Hy L) as (H2 & _ & Hs & Hb).
      rewrite H, (f_mag_sig y Hy) in Hb. change (2 ^ 24) with (2 * 2 ^ 23) in Hb.
      remember (2 ^ 23) as t. pose proof (f_unit_pos x). nia.
    - destruct (unit_order y x Hy Hx L) as (H2 & _ & Hs & Hb).
      rewrite <- H, (f_mag_sig x Hx) in Hb. change (2 ^ 24) with (2 * 2 ^ 23) in Hb.
      remember (2 ^ 23) as t. pose proof (f_unit_pos y). nia. }
  rewrite (f_mag_sig x Hx), (f_mag_sig y Hy), Hu in H.
  apply Z.mul_reg_r in H; [|pose proof (f_unit_pos y); lia].
  destruct (f_fields x Hx) as [Hex Hmx]. destruct (f_fields y Hy) as [Hey Hmy].
  assert (He : Z.max (f_exp x - 1) 0 = Z.max (f_exp y - 1) 0).
  { unfold f_unit in Hu. apply Z.pow_inj_r in Hu; lia. }
  unfold f_sig in H.
  destruct (f_exp x =? 0) eqn:E1, (f_exp y =? 0) eqn:E2;
    rewrite ?Z.eqb_eq, ?Z.eqb_neq in E1; rewrite ?Z.eqb_eq, ?Z.eqb_neq in E2; lia.
Qed.

Lemma float_inj : forall x y, is_float x -> is_float y ->
  f_sign x = f_sign y -> f_mag x = f_mag y -> x = y.
Proof.
  intros x y Hx Hy Hs Hm. destruct (mag_inj x y Hx Hy Hm) as [He Hn].
  unfold f_sign, f_exp, f_man, is_float in *.
  assert (Dx : x = 2 ^ 31 * (x / 2 ^ 31) + 2 ^ 23 * ((x / 2 ^ 23) mod 256) + x mod 2 ^ 23).
  { pose proof (Z.div_mod x (2 ^ 23) ltac:(discriminate)) as A.
    pose proof (Z.div_mod (x / 2 ^ 23) 256 ltac:(discriminate)) as B.
    rewrite Z.div_div in B by lia. change (2 ^ 23 * 256) with (2 ^ 31) in B.
    change (2 ^ 31) with (2 ^ 23 * 256) at 1. lia. }
  assert (Dy : y = 2 ^ 31 * (y / 2 ^ 31) + 2 ^ 23 * ((y / 2 ^ 23) mod 256) + y mod 2 ^ 23).
  { pose proof (Z.div_mod y (2 ^ 23) ltac:(discriminate)) as A.
    pose proof (Z.div_mod (y / 2 ^ 23) 256 ltac:(discriminate)) as B.
    rewrite Z.div_div in B by lia. change (2 ^ 23 * 256) with (2 ^ 31) in B.
    change (2 ^ 31) with (2 ^ 23 * 256) at 1. lia. }
  assert (Hsx : x / 2 ^ 31 = 0 \/ x / 2 ^ 31 = 1).
  { assert (0 <= x / 2 ^ 31 < 2); [|lia]. split; [apply Z.div_pos; [lia | reflexivity]|].
    apply Z.div_lt_upper_bound; [reflexivity|]. change (2 ^ 31 * 2) with (2 ^ 32). lia. }
  assert (Hsy : y / 2 ^ 31 = 0 \/ y / 2 ^ 31 = 1).
  { assert (0 <= y / 2 ^ 31 < 2); [|lia]. split; [apply Z.div_pos; [lia | reflexivity]|].
    apply Z.div_lt_upper_bound; [reflexivity|]. change (2 ^ 31 * 2) with (2 ^ 32). lia. }
  rewrite Dx, Dy, He, Hn.
  destruct Hsx as [A | A], Hsy as [B | B]; rewrite A, B in *; try reflexivity; discriminate Hs.
Qed.

(** ---- reading back ---- *)

(** the last digit printed is finer than the spacing of the floats around x *)
Definition fine (x e : Z) : Prop :=
  down e < f_unit x * up e /\ (f_sig x = 2 ^ 23 -> 2 * down e < f_unit x * up e).

(** a float that is not farther from the printed decimal than x, is x *)
Lemma close_same : forall x y d e, is_float x -> is_float y -> fine x e ->
  2 * Z.abs (f_mag x * up e - d * down e) <= down e ->
  2 * Z.abs (f_mag y * up e - d * down e) <= down e ->
  f_mag y = f_mag x.
Proof.
  intros x y d e Hx Hy [F1 F2] Cx Cy.
  pose proof (down_pos e) as Hd. pose proof (up_pos e) as Hu.
  assert (Hdist : Z.abs (f_mag x - f_mag y) * up e <= down e).
  { replace (Z.abs (f_mag x - f_mag y) * up e) with (Z.abs (f_mag x * up e - f_mag y * up e)).
    - lia.
    - rewrite <- Z.mul_sub_distr_r, Z.abs_mul. f_equal. lia. }
  assert (Hlt : Z.abs (f_mag x - f_mag y) < f_unit x).
  { apply (Z.mul_lt_mono_pos_r (up e)); lia. }
  pose proof (f_unit_pos x) as Px. pose proof (f_unit_pos y) as Py.
  destruct (Z.lt_trichotomy (f_unit x) (f_unit y)) as [L | [Q | L]].
  - destruct (unit_order x y Hx Hy L) as (_ & [k Hk] & Hs & _).
    rewrite (f_mag_sig x Hx), (f_mag_sig y Hy), Hk in Hlt. rewrite (f_mag_sig x Hx), (f_mag_sig y Hy), Hk.
    replace (f_sig x * f_unit x - f_sig y * (k * f_unit x)) with ((f_sig x - f_sig y * k) * f_unit x) in Hlt by ring.
    rewrite Z.abs_mul, (Z.abs_eq (f_unit x)) in Hlt by lia.
    assert (Z.abs (f_sig x - f_sig y * k) < 1) by nia.
    assert (f_sig x = f_sig y * k) by lia. nia.
  - rewrite (f_mag_sig x Hx), (f_mag_sig y Hy), <- Q in Hlt. rewrite (f_mag_sig x Hx), (f_mag_sig y Hy), <- Q.
    rewrite <- Z.mul_sub_distr_r in Hlt.
    rewrite Z.abs_mul, (Z.abs_eq (f_unit x)) in Hlt by lia.
    assert (Z.abs (f_sig x - f_sig y) < 1) by nia. f_equal. lia.
  - (* y in a lower binade *)
    destruct (unit_order y x Hy Hx L) as (H2 & [k Hk] & Hs & Hb).
    destruct (Z.eq_dec (f_sig x) (2 ^ 23)) as [B | B].
    + specialize (F2 B). exfalso.
      pose proof (f_sig_bound y Hy) as [Hy0 Hy1].
      (* y <= (2^24 - 1) * unit y, x = 2^23 * unit x >= 2^24 * unit y *)
      assert (Hgap : f_mag y + f_unit x <= f_mag x + (f_unit x - f_unit y)).
      { rewrite (f_mag_sig x Hx), (f_mag_sig y Hy), B.
        change (2 ^ 24) with (2 * 2 ^ 23) in Hy1. remember (2 ^ 23) as t. clear Heqt. nia. }
      assert (Hk2 : k = 2 \/ 4 <= k).
      { unfold f_unit in Hk.
        assert (Hm : Z.max (f_exp y - 1) 0 < Z.max (f_exp x - 1) 0).
        { unfold f_unit in L. destruct (Z_lt_ge_dec (Z.max (f_exp y - 1) 0) (Z.max (f_exp x - 1) 0)) as [LL | G]; [exact LL|].
          assert (2 ^ Z.max (f_exp x - 1) 0 <= 2 ^ Z.max (f_exp y - 1) 0) by (apply Z.pow_le_mono_r; lia). lia. }
        replace (Z.max (f_exp x - 1) 0) with ((Z.max (f_exp x - 1) 0 - Z.max (f_exp y - 1) 0) + Z.max (f_exp y - 1) 0) in Hk by lia.
        rewrite Z.pow_add_r in Hk by lia. apply Z.mul_reg_r in Hk; [|fold (f_unit y); lia].
        destruct (Z.eq_dec (Z.max (f_exp x - 1) 0 - Z.max (f_exp y - 1) 0) 1) as [O | O].
        - rewrite O in Hk. left. symmetry. exact Hk.
        - right. rewrite <- Hk. change 4 with (2 ^ 2). apply Z.pow_le_mono_r; lia. }
      destruct Hk2 as [K | K].
      * subst k. assert (f_unit y * up e <= down e); [|nia].
        apply Z.le_trans with (Z.abs (f_mag x - f_mag y) * up e); [|exact Hdist].
        apply Z.mul_le_mono_nonneg_r; lia.
      * (* two binades below: y < 2^24 unit y <= 2^22 unit x *)
        rewrite (f_mag_sig x Hx), B in Hlt. change (2 ^ 24) with (2 * 2 ^ 23) in Hb.
        assert (T : 4 <= 2 ^ 23) by (vm_compute; discriminate).
        remember (2 ^ 23) as t. clear Heqt. nia.
    + exfalso.
      rewrite (f_mag_sig x Hx) in Hlt. change (2 ^ 24) with (2 * 2 ^ 23) in Hb.
      assert (T : 4 <= 2 ^ 23) by (vm_compute; discriminate).
      remember (2 ^ 23) as t. clear Heqt.
      assert (t + 1 <= f_sig x) by lia.
      assert ((t + 1) * f_unit x <= f_sig x * f_unit x) by (apply Z.mul_le_mono_nonneg_r; lia).
      assert (t * (2 * f_unit y) <= t * f_unit x) by (apply Z.mul_le_mono_nonneg_l; lia). lia.
Qed.

(** a reader that returns a float of the printed sign nearest to the printed decimal *)
Definition correct_reader (read : ptext -> option Z) : Prop :=
  forall x d e, is_float x -> f_finite x = true -> printed x = PNum (f_sign x) d e ->
  exists y, read (PNum (f_sign x) d e) = Some y /\ is_float y /\ f_sign y = f_sign x
  /\ forall z, is_float z -> f_finite z = true ->
       Z.abs (f_mag y * up e - d * down e) <= Z.abs (f_mag z * up e - d * down e).

Lemma read_back : forall read x d e, correct_reader read -> is_float x -> f_finite x = true -> f_mag x <> 0 ->
  printed x = PNum (f_sign x) d e -> fine x e -> read (printed x) = Some x.
Proof.
  intros read x d e R Hx Hf H0 Hp F.
  destruct (printed_digits x Hx Hf H0) as (d' & e' & Hp' & _ & Hc).
  rewrite Hp in Hp'. injection Hp' as -> ->.
  destruct (R x d' e' Hx Hf Hp) as (y & Hy & Fy & Sy & Ny).
  rewrite Hp, Hy. f_equal. apply float_inj; [exact Fy | exact Hx | exact Sy |].
  apply (close_same x y d' e' Hx Fy F Hc). specialize (Ny x Hx Hf). lia.
Qed.

Lemma fine_distinct : forall x y d e s, is_float x -> is_float y -> f_finite x = true -> f_finite y = true ->
  f_mag x <> 0 -> f_mag y <> 0 -> printed x = PNum s d e -> fine x e -> printed y = printed x -> y = x.
Proof.
  intros x y d e s Hx Hy Fx Fy Nx Ny Hp F Hxy.
  destruct (printed_digits x Hx Fx Nx) as (d1 & e1 & P1 & _ & C1).
  destruct (printed_digits y Hy Fy Ny) as (d2 & e2 & P2 & _ & C2).
  rewrite Hxy in P2. rewrite P1 in P2. injection P2 as Hs -> ->.
  rewrite Hp in P1. injection P1 as _ -> ->.
  apply float_inj; [exact Hy | exact Hx | congruence |].
  exact (close_same x y d2 e2 Hx Hy F C1 C2).
Qed.

(** between 1 and 10 the digits are enough *)
Lemma fine_unit_decade : forall x d s, is_float x -> f_finite x = true -> printed x = PNum s d 0 -> f_mag x > 2 ^ 149 -> fine x 0.
Proof.
  intros x d s Hx Hf Hp Hm.
  assert (He : 127 <= f_exp x).
  { destruct (Z_lt_ge_dec (f_exp x) 127) as [L | G]; [|lia]. exfalso.
    pose proof (f_sig_bound x Hx) as Hs. rewrite (f_mag_sig x Hx) in Hm.
    assert (f_unit x <= 2 ^ 125). { unfold f_unit. apply Z.pow_le_mono_r; lia. }
    change (2 ^ 149) with (2 ^ 24 * 2 ^ 125) in Hm. pose proof (f_unit_pos x).
    remember (2 ^ 24) as t. remember (2 ^ 125) as w. clear - Hs Hm H H0. nia. }
  assert (Hu : 2 ^ 126 <= f_unit x). { unfold f_unit. apply Z.pow_le_mono_r; lia. }
  unfold fine. assert (U : up 0 = 10 ^ 7) by reflexivity. assert (Dn : down 0 = 2 ^ 149) by reflexivity.
  rewrite U, Dn. split.
  - apply Z.lt_le_trans with (2 ^ 126 * 10 ^ 7); [reflexivity|].
    apply Z.mul_le_mono_nonneg_r; [vm_compute; discriminate | exact Hu].
  - intro B. assert (Hu2 : 2 ^ 127 <= f_unit x).
    { unfold f_unit. apply Z.pow_le_mono_r; [lia|].
      destruct (Z.eq_dec (f_exp x) 127) as [Q | Q]; [exfalso | lia].
      rewrite (f_mag_sig x Hx), B in Hm. unfold f_unit in Hm. rewrite Q in Hm.
      vm_compute in Hm. discriminate. }
    apply Z.lt_le_trans with (2 ^ 127 * 10 ^ 7); [reflexivity|].
    apply Z.mul_le_mono_nonneg_r; [vm_compute; discriminate | exact Hu2].
Qed.
