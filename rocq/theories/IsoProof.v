(** Proofs about isospin branching. *)
From Coq Require Import List ZArith Reals Bool Lia Lra.
From Verif Require Import Base BaseLemmas RMat OscModel OscFinal BlockModel BlockProof MoshModel JpvModel JpvSpec JpvProof IsoModel IsoSpec.
Import ListNotations.
Open Scope Z_scope.
Open Scope outcome_scope.

Lemma sqrt_pos_scale : forall e s, (0 <= s)%R -> (sqrt e * s = sqrt ((s * s) * e))%R.
Proof. intros e s H. rewrite sqrt_mult_alt by nra. rewrite sqrt_square by exact H. ring. Qed.
Lemma sqrt_neg_scale : forall e s, (s <= 0)%R -> (sqrt e * s = - sqrt ((s * s) * e))%R.
Proof. intros e s H. replace (s * s)%R with ((-s) * (-s))%R by ring. rewrite <- sqrt_pos_scale by lra. ring. Qed.
Ltac cg_value :=
  cbv -[Rplus Rmult Rdiv Rinv Ropp sqrt IZR];
  match goal with |- (sqrt ?e * ?s)%R = _ =>
    first [ let H := fresh in assert (H : (0 <= s)%R) by (field_simplify; lra); rewrite (sqrt_pos_scale e s H)
          | let H := fresh in assert (H : (s <= 0)%R) by (field_simplify; lra); rewrite (sqrt_neg_scale e s H) ] end;
  try match goal with |- _ = 0%R => transitivity (sqrt 0); [|apply sqrt_0] | |- _ = 1%R => transitivity (sqrt 1); [|apply sqrt_1] end;
  match goal with |- (- _ = - _)%R => do 2 apply f_equal | |- (- sqrt _ = sqrt 0)%R => rewrite sqrt_0, <- Ropp_0, <- sqrt_0 at 1; do 2 apply f_equal | _ => apply f_equal end; field.

Lemma cg_zero : forall j1 m1 j2 m2 j m, (m1 + m2 =? m) && (Z.abs (j1 - j2) <=? j) && (j <=? j1 + j2) && (Z.abs m1 <=? j1) && (Z.abs m2 <=? j2) && (Z.abs m <=? j) = false ->
  cg j1 m1 j2 m2 j m = 0%R.
Proof. intros j1 m1 j2 m2 j m H. unfold cg. rewrite H. reflexivity. Qed.
Lemma coefficient_cg : forall Tb Tk Tzb Tzk T0, 0 <= Tb <= 1 -> 0 <= Tk <= 1 -> Z.abs Tzb <= Tb -> Z.abs Tzk <= Tk -> 0 <= Tzb - Tzk <= T0 -> Z.abs (Tb - Tk) <= T0 <= Tb + Tk ->
  isospin_coefficient Tb Tk (Tzb - Tzk) Tzk T0 = Ok (cg Tk Tzk T0 (Tzb - Tzk) Tb Tzb).
Proof.
  intros Tb Tk Tzb Tzk T0 Hb Hk Hzb Hzk Hz HT.
  assert (Cb : Tb = 0 \/ Tb = 1) by lia. assert (Ck : Tk = 0 \/ Tk = 1) by lia.
  assert (Czb : Tzb = -1 \/ Tzb = 0 \/ Tzb = 1) by lia. assert (Czk : Tzk = -1 \/ Tzk = 0 \/ Tzk = 1) by lia. assert (C0 : T0 = 0 \/ T0 = 1 \/ T0 = 2) by lia.
  destruct Cb as [-> | ->], Ck as [-> | ->], Czb as [-> | [-> | ->]]; try lia; destruct Czk as [-> | [-> | ->]]; try lia; destruct C0 as [-> | [-> | ->]]; try lia;
    match goal with |- ?l = Ok ?r => let l' := eval cbv -[Rplus Rmult Rdiv Rinv Ropp sqrt IZR] in l in change l with l' end; apply f_equal; symmetry; cg_value.
Qed.
(** * Loops which add *)
Definition adds (nb nk : nat) (w : nat -> nat -> R) (body : mat R -> outcome (mat R)) : Prop :=
  forall m, rows m = nb -> cols m = nk -> exists m', body m = Ok m' /\ rows m' = nb /\ cols m' = nk
  /\ forall i j, (i < nb)%nat -> (j < nk)%nat -> at_ m' i j = (at_ m i j + w i j)%R.
Lemma adds_each : forall {A} nb nk (w : A -> nat -> nat -> R) (body : A -> mat R -> outcome (mat R)) l, (forall x, In x l -> adds nb nk (w x) (body x)) ->
  adds nb nk (fun i j => lsum l (fun x => w x i j)) (for_each l body).
Proof.
  intros A nb nk w body l. induction l as [|x l IH]; intros H m Hr Hc; cbn [for_each lsum].
  - exists m. split; [reflexivity|]. split; [exact Hr|]. split; [exact Hc|]. intros. ring.
  - destruct (H x (or_introl eq_refl) m Hr Hc) as (m1 & E1 & R1 & C1 & A1). rewrite E1. cbn [bind].
    destruct (IH (fun y Hy => H y (or_intror Hy)) m1 R1 C1) as (m2 & E2 & R2 & C2 & A2). exists m2. split; [exact E2|]. split; [exact R2|]. split; [exact C2|].
    intros i j Hi Hj. rewrite A2, A1 by assumption. ring.
Qed.
Lemma adds_ext : forall nb nk w w' body, adds nb nk w body -> (forall i j, (i < nb)%nat -> (j < nk)%nat -> w i j = w' i j) -> adds nb nk w' body.
Proof.
  intros nb nk w w' body H E m Hr Hc. destruct (H m Hr Hc) as (m' & E1 & R1 & C1 & A1). exists m'. split; [exact E1|]. split; [exact R1|]. split; [exact C1|].
  intros i j Hi Hj. rewrite <- E by assumption. auto.
Qed.
Lemma adds_none : forall nb nk, adds nb nk (fun _ _ => 0%R) (fun m => Ok m).
Proof. intros nb nk m Hr Hc. exists m. split; [reflexivity|]. split; [exact Hr|]. split; [exact Hc|]. intros. ring. Qed.
(** one element at a time *)
Lemma adds_loop : forall nb nk (w : nat -> nat -> R) (body : nat -> nat -> mat R -> outcome (mat R)),
  (forall i j, (i < nb)%nat -> (j < nk)%nat -> adds nb nk (fun a b => if Nat.eqb a i && Nat.eqb b j then w i j else 0%R) (body i j)) -> adds nb nk w (loop2 (pairs nb nk) body).
Proof.
  intros nb nk w body H.
  assert (G : forall l, NoDup l -> (forall p, In p l -> (fst p < nb)%nat /\ (snd p < nk)%nat) ->
     adds nb nk (fun a b => lsum l (fun p => if Nat.eqb a (fst p) && Nat.eqb b (snd p) then w (fst p) (snd p) else 0%R)) (loop2 l body)).
  { induction l as [|[i j] l IH]; intros Hn Hl m Hr Hc; cbn [loop2 lsum fst snd].
    - exists m. split; [reflexivity|]. split; [exact Hr|]. split; [exact Hc|]. intros. ring.
    - inversion Hn; subst. destruct (Hl (i, j) (or_introl eq_refl)) as [Hi Hj]. cbn [fst snd] in Hi, Hj.
      destruct (H i j Hi Hj m eq_refl eq_refl) as (m1 & E1 & R1 & C1 & A1). rewrite E1. cbn [bind].
      destruct (IH H3 (fun p Hp => Hl p (or_intror Hp)) m1 R1 C1) as (m2 & E2 & R2 & C2 & A2). exists m2. split; [exact E2|]. split; [exact R2|]. split; [exact C2|].
      intros a b Ha Hb. rewrite A2, A1 by assumption. ring. }
  apply (adds_ext _ _ _ w _ (G (pairs nb nk) (NoDup_pairs nb nk) (fun p Hp => proj1 (in_pairs nb nk (fst p) (snd p)) (eq_ind_r (fun q => In q _) Hp (eq_sym (surjective_pairing p)))))).
  intros i j Hi Hj.
  assert (dec : forall x y : nat * nat, {x = y} + {x <> y}) by (decide equality; apply Nat.eq_dec).
  rewrite (lsum_one _ dec (pairs nb nk) (i, j)).
  - cbn [fst snd]. rewrite !Nat.eqb_refl. reflexivity.
  - apply NoDup_pairs.
  - apply in_pairs; split; assumption.
  - intros [a b] _ Hne. cbn [fst snd]. destruct (Nat.eqb_spec i a) as [->|]; [|reflexivity]. destruct (Nat.eqb_spec j b) as [->|]; [congruence|reflexivity].
Qed.
Lemma orb_eqb_ok : forall a b, orb_eqb a b = true <-> a = b.
Proof. intros [a1 a2] [b1 b2]. unfold orb_eqb. cbn. rewrite andb_true_iff, !Z.eqb_eq. split; [intros [-> ->]; reflexivity|intros E; injection E as -> ->; auto]. Qed.
Lemma pair_eqb_ok : forall a b, pair_eqb a b = true <-> a = b.
Proof. intros [a1 a2] [b1 b2]. unfold pair_eqb. cbn [fst snd]. rewrite andb_true_iff, !orb_eqb_ok. split; [intros [-> ->]; reflexivity|intros E; injection E as -> ->; auto]. Qed.
Lemma find_pair : forall l (a : orb * orb), In a l -> exists i, find_ix (pair_eqb a) l = Some i /\ nth_error l i = Some a.
Proof.
  intros l a Hin. destruct (find_ix (pair_eqb a) l) as [i|] eqn:E.
  - exists i. split; [reflexivity|]. apply find_ix_some in E. destruct E as (x & Hx & Ha). apply pair_eqb_ok in Ha. congruence.
  - exfalso. pose proof (find_ix_none _ _ _ E a Hin) as H. assert (pair_eqb a a = true) by (apply pair_eqb_ok; reflexivity). congruence.
Qed.
Lemma find_tsub_some : forall sp J T g i, find_tsub sp J T g = Some i -> exists x, nth_error sp i = Some x /\ tl x = (J, T, g).
Proof.
  intros sp J T g i H. apply find_ix_some in H. destruct H as (x & Hx & Hl). rewrite !andb_true_iff, !Z.eqb_eq in Hl. destruct Hl as [[H1 H2] H3].
  exists x. split; [exact Hx|]. unfold tl. congruence.
Qed.
Lemma find_tsub_none : forall sp J T g, find_tsub sp J T g = None -> ~ In (J, T, g) (map tl sp).
Proof.
  intros sp J T g H Hin. apply in_map_iff in Hin. destruct Hin as (x & Hl & Hx). pose proof (find_ix_none _ _ _ H x Hx) as E. cbn in E.
  injection Hl as H1 H2 H3. rewrite H1, H2, H3, !Z.eqb_refl in E. discriminate.
Qed.
Lemma lsum_zrange_from : forall a' a b g, a <= a' -> (forall x, a <= x < a' -> g x = 0%R) -> lsum (zrange a b) g = lsum (zrange a' b) g.
Proof.
  intros a' a b g Ha Hg. rewrite (lsum_nodup_eq _ (zrange a' b) (filter (fun x => a' <=? x) (zrange a b))).
  - rewrite lsum_filter. apply lsum_ext. intros x Hx. apply in_zrange in Hx. destruct (Z.leb_spec a' x); [reflexivity|]. apply Hg. lia.
  - apply NoDup_zrange.
  - apply NoDup_filter. apply NoDup_zrange.
  - intros x. rewrite filter_In, !in_zrange, Z.leb_le. lia.
Qed.
Section BRANCH.
Variable f : Z -> nat -> nat -> R.
Variables T0_min T0_max : Z.
Variable sp : tspace.
Variable c : components.
Variable F : rme.
Variables bra ket : psub.
Variable diagonal : bool.
Hypothesis Hanti : antisymmetric F.
Hypothesis Hherm : hermitian f sp F.
Hypothesis Hwithin : within sp F.
Hypothesis Hstore : stores T0_min T0_max (q_J bra) (q_g bra) (q_J ket) (q_g ket) sp c F.
Hypothesis Hbra : states_ok sp bra.
Hypothesis Hket : states_ok sp ket.
Hypothesis HTz : 0 <= q_Tz bra - q_Tz ket.
Hypothesis Hmin : 0 <= T0_min.
Definition pn_value (T0 Tb Tk : Z) (b k : pstate) : R := F T0 (q_J bra, Tb, q_g bra) (p_o1 b) (p_o2 b) (q_J ket, Tk, q_g ket) (p_o1 k) (p_o2 k).

Lemma rem_odd : forall z, 0 <= z -> (Z.rem z 2 =? 1) = Z.odd z.
Proof.
  intros z Hz. rewrite Z.rem_mod_nonneg by lia. rewrite Zmod_odd. destruct (Z.odd z); reflexivity.
Qed.
Lemma phase_ordered : forall J T g s lb fb, 0 <= snd (p_o1 s) -> 0 <= snd (p_o2 s) -> ordered J T s = (fb, lb) ->
  lb = (if Nat.leb (p_i1 s) (p_i2 s) then (p_o1 s, p_o2 s) else (p_o2 s, p_o1 s)) /\
  (forall T0 l' a b, F T0 (J, T, g) (p_o1 s) (p_o2 s) l' a b = fb * F T0 (J, T, g) (fst lb) (snd lb) l' a b)%R /\
  (forall T0 l' a b, F T0 l' a b (J, T, g) (p_o1 s) (p_o2 s) = fb * F T0 l' a b (J, T, g) (fst lb) (snd lb))%R.
Proof.
  intros J T g s lb fb H1 H2 E. unfold ordered in E. destruct (Nat.leb (p_i1 s) (p_i2 s)).
  - injection E as <- <-. split; [reflexivity|]. split; intros; cbn [fst snd]; ring.
  - injection E as <- <-. split; [reflexivity|]. cbn [fst snd]. destruct Hanti as [A1 A2].
    assert (Ep : parity_sign (Z.quot (snd (p_o1 s) + snd (p_o2 s)) 2 + J + T) = exchange (J, T, g) (p_o2 s) (p_o1 s)).
    { unfold parity_sign, exchange. rewrite Z.quot_div_nonneg by lia. rewrite (Z.add_comm (snd (p_o2 s))). reflexivity. }
    rewrite Ep. split; intros; [apply A1|apply A2].
Qed.
Lemma like_zero_bra : forall T0 J T g s l' a b, 0 <= J -> 0 <= T -> p_o1 s = p_o2 s -> Z.odd (snd (p_o1 s)) = true -> Z.odd (J + T) = false -> F T0 (J, T, g) (p_o1 s) (p_o2 s) l' a b = 0%R.
Proof.
  intros T0 J T g s l' a b HJ HT Ho Hodd He. rewrite <- Ho. pose proof (proj1 Hanti T0 (J, T, g) (p_o1 s) (p_o1 s) l' a b) as E. unfold exchange in E.
  replace (snd (p_o1 s) + snd (p_o1 s)) with (snd (p_o1 s) * 2) in E by lia. rewrite Z.div_mul in E by lia.
  replace (Z.even (snd (p_o1 s) + J + T)) with false in E. { lra. }
  rewrite <- Z.negb_odd. rewrite <- Z.add_assoc, Z.odd_add, Hodd, He. reflexivity.
Qed.
Lemma like_zero_ket : forall T0 J T g s l' a b, 0 <= J -> 0 <= T -> p_o1 s = p_o2 s -> Z.odd (snd (p_o1 s)) = true -> Z.odd (J + T) = false -> F T0 l' a b (J, T, g) (p_o1 s) (p_o2 s) = 0%R.
Proof.
  intros T0 J T g s l' a b HJ HT Ho Hodd He. rewrite <- Ho. pose proof (proj2 Hanti T0 l' a b (J, T, g) (p_o1 s) (p_o1 s)) as E. unfold exchange in E.
  replace (snd (p_o1 s) + snd (p_o1 s)) with (snd (p_o1 s) * 2) in E by lia. rewrite Z.div_mul in E by lia.
  replace (Z.even (snd (p_o1 s) + J + T)) with false in E. { lra. }
  rewrite <- Z.negb_odd. rewrite <- Z.add_assoc, Z.odd_add, Hodd, He. reflexivity.
Qed.
Lemma expansion_norm : expansion_factor (q_Tz bra) (q_Tz ket) = (pair_norm (q_Tz bra) * pair_norm (q_Tz ket))%R.
Proof.
  unfold expansion_factor, pair_norm. destruct (q_Tz bra =? 0), (q_Tz ket =? 0); cbn; try ring. rewrite sqrt_sqrt; lra.
Qed.
(** one source sector *)
Lemma sector_adds : forall T0 Tb Tk, T0_min <= T0 <= T0_max -> q_Tz bra - q_Tz ket <= T0 -> Z.abs (q_Tz bra) <= Tb <= 1 -> Z.abs (q_Tz ket) <= Tk <= 1 ->
  adds (length (q_states bra)) (length (q_states ket))
    (fun i j => if diagonal && negb (Nat.leb i j) then 0%R else
       match nth_error (q_states bra) i, nth_error (q_states ket) j with
       | Some b, Some k => (pair_norm (q_Tz bra) * pair_norm (q_Tz ket) * cg Tk (q_Tz ket) T0 (q_Tz bra - q_Tz ket) Tb (q_Tz bra) * pn_value T0 Tb Tk b k)%R
       | _, _ => 0%R end)
    (branch_sector (f T0) sp c bra ket diagonal T0 Tb Tk).
Proof.
  intros T0 Tb Tk HT0 Hz HTb HTk.
  assert (Hzero : (forall b k, cg Tk (q_Tz ket) T0 (q_Tz bra - q_Tz ket) Tb (q_Tz bra) * pn_value T0 Tb Tk b k = 0)%R ->
    forall i j, (if diagonal && negb (Nat.leb i j) then 0%R else
       match nth_error (q_states bra) i, nth_error (q_states ket) j with
       | Some b, Some k => (pair_norm (q_Tz bra) * pair_norm (q_Tz ket) * cg Tk (q_Tz ket) T0 (q_Tz bra - q_Tz ket) Tb (q_Tz bra) * pn_value T0 Tb Tk b k)%R
       | _, _ => 0%R end) = 0%R).
  { intros H i j. destruct (_ && _); [reflexivity|]. destruct (nth_error (q_states bra) i) as [b|]; [|reflexivity]. destruct (nth_error (q_states ket) j) as [k|]; [|reflexivity].
    rewrite !Rmult_assoc, H. ring. }
  unfold branch_sector. destruct (allowed_triangle Tb T0 Tk) eqn:Etri; cbn [negb].
  2:{ apply (adds_ext _ _ _ _ _ (adds_none _ _)). intros i j _ _. symmetry. apply Hzero. intros b k. rewrite cg_zero; [ring|].
      unfold allowed_triangle in Etri. rewrite andb_false_iff, !Z.leb_gt in Etri. rewrite !andb_false_iff, !Z.leb_gt. lia. }
  destruct (find_tsub sp (q_J bra) Tb (q_g bra)) as [sb|] eqn:Eb.
  2:{ apply (adds_ext _ _ _ _ _ (adds_none _ _)). intros i j _ _. symmetry. apply Hzero. intros b k. unfold pn_value. apply find_tsub_none in Eb.
      destruct (Req_dec (F T0 (q_J bra, Tb, q_g bra) (p_o1 b) (p_o2 b) (q_J ket, Tk, q_g ket) (p_o1 k) (p_o2 k)) 0) as [E|E]; [rewrite E; ring|].
      apply Hwithin in E. tauto. }
  destruct (find_tsub sp (q_J ket) Tk (q_g ket)) as [sk|] eqn:Ek.
  2:{ apply (adds_ext _ _ _ _ _ (adds_none _ _)). intros i j _ _. symmetry. apply Hzero. intros b k. unfold pn_value. apply find_tsub_none in Ek.
      destruct (Req_dec (F T0 (q_J bra, Tb, q_g bra) (p_o1 b) (p_o2 b) (q_J ket, Tk, q_g ket) (p_o1 k) (p_o2 k)) 0) as [E|E]; [rewrite E; ring|].
      apply Hwithin in E. tauto. }
  clear Hzero. apply find_tsub_some in Eb. destruct Eb as (tb & Etb & Lb). apply find_tsub_some in Ek. destruct Ek as (tk & Etk & Lk).
  rewrite Etb, Etk. cbn [get bind].
  assert (Htri : Z.abs (Tb - Tk) <= T0 <= Tb + Tk) by (unfold allowed_triangle in Etri; rewrite andb_true_iff, !Z.leb_le in Etri; lia).
  pose proof Lb as Lb'. pose proof Lk as Lk'. injection Lb' as Jb' Tb' gb'. injection Lk' as Jk' Tk' gk'.
  assert (Hsrc : exists sectors ms q source, nth_error c (Z.to_nat T0) = Some (sectors, ms) /\ look_up_sector sectors (Nat.min sb sk) (Nat.max sb sk) = Some q /\ nth_error ms q = Some source
     /\ forall ib ik a b, nth_error (t_states tb) ib = Some a -> nth_error (t_states tk) ik = Some b ->
        exists ib' ik' fc x, canonicalize (f T0 sb sk) sb sk ib ik = (ib', ik', fc) /\ mat_at source ib' ik' = Ok x
        /\ (fc * x)%R = F T0 (tl tb) (fst a) (snd a) (tl tk) (fst b) (snd b)).
  { destruct (le_lt_dec sb sk) as [Hle|Hlt].
    - destruct (Hstore T0 sb sk tb tk HT0 Hle Etb Etk) as (sectors & ms & q & m & E1 & E2 & E3 & E4 & E5 & E6 & E7); [left; repeat split; congruence|lia|].
      exists sectors, ms, q, m. split; [exact E1|]. rewrite Nat.min_l, Nat.max_r by lia. split; [apply look_up_ok; assumption|]. split; [exact E4|].
      intros ib ik a b Ha Hb. assert (Hib : (ib < rows m)%nat) by (rewrite E5; apply nth_error_Some; congruence). assert (Hik : (ik < cols m)%nat) by (rewrite E6; apply nth_error_Some; congruence).
      unfold canonicalize. replace (Nat.ltb sk sb) with false by (symmetry; apply Nat.ltb_ge; lia).
      destruct (Nat.eqb_spec sb sk) as [Heq|Hne]; cbn [andb].
      + subst sk. rewrite Etb in Etk. injection Etk as <-. destruct (Nat.ltb_spec ik ib).
        * exists ik, ib, 1%R. eexists. split; [reflexivity|]. unfold mat_at. replace (Nat.ltb ik (rows m)) with true by (symmetry; apply Nat.ltb_lt; lia). replace (Nat.ltb ib (cols m)) with true by (symmetry; apply Nat.ltb_lt; lia).
          split; [reflexivity|]. rewrite (E7 ik ib b a) by (try assumption; lia). rewrite Rmult_1_l. apply (proj2 Hherm).
        * exists ib, ik, 1%R. eexists. split; [reflexivity|]. unfold mat_at. replace (Nat.ltb ib (rows m)) with true by (symmetry; apply Nat.ltb_lt; lia). replace (Nat.ltb ik (cols m)) with true by (symmetry; apply Nat.ltb_lt; lia).
          split; [reflexivity|]. rewrite (E7 ib ik a b) by (try assumption; lia). ring.
      + exists ib, ik, 1%R. eexists. split; [reflexivity|]. unfold mat_at. replace (Nat.ltb ib (rows m)) with true by (symmetry; apply Nat.ltb_lt; lia). replace (Nat.ltb ik (cols m)) with true by (symmetry; apply Nat.ltb_lt; lia).
        split; [reflexivity|]. rewrite (E7 ib ik a b) by (try assumption; lia). ring.
    - destruct (Hstore T0 sk sb tk tb HT0) as (sectors & ms & q & m & E1 & E2 & E3 & E4 & E5 & E6 & E7); [lia|exact Etk|exact Etb|right; repeat split; congruence|lia|].
      exists sectors, ms, q, m. split; [exact E1|]. rewrite Nat.min_r, Nat.max_l by lia. split; [apply look_up_ok; assumption|]. split; [exact E4|].
      intros ib ik a b Ha Hb. assert (Hik : (ik < rows m)%nat) by (rewrite E5; apply nth_error_Some; congruence). assert (Hib : (ib < cols m)%nat) by (rewrite E6; apply nth_error_Some; congruence).
      unfold canonicalize. replace (Nat.ltb sk sb) with true by (symmetry; apply Nat.ltb_lt; lia). exists ik, ib, (f T0 sb sk). eexists. split; [reflexivity|].
      unfold mat_at. replace (Nat.ltb ik (rows m)) with true by (symmetry; apply Nat.ltb_lt; lia). replace (Nat.ltb ib (cols m)) with true by (symmetry; apply Nat.ltb_lt; lia).
      split; [reflexivity|]. rewrite (E7 ik ib b a) by (try assumption; lia). symmetry. apply (proj1 Hherm T0 sb sk tb tk); assumption. }
  destruct Hsrc as (sectors & ms & q & source & E1 & E2 & E3 & Hval). unfold at_z at 1. replace (T0 <? 0) with false by (symmetry; apply Z.ltb_ge; lia).
  rewrite E1. cbn [get bind]. rewrite E2. cbn [get bind]. rewrite E3. cbn [get bind]. rewrite coefficient_cg by lia. cbn [bind].
  set (CG := cg Tk (q_Tz ket) T0 (q_Tz bra - q_Tz ket) Tb (q_Tz bra)).
  apply adds_loop. intros i j Hi Hj m Hr Hc. unfold branch_element.
  destruct (diagonal && negb (Nat.leb i j)) eqn:Ed.
  { exists m. split; [reflexivity|]. split; [exact Hr|]. split; [exact Hc|]. intros a b _ _. destruct (Nat.eqb a i && Nat.eqb b j); ring. }
  destruct (nth_error (q_states bra) i) as [b|] eqn:Eb; [|apply nth_error_None in Eb; lia]. destruct (nth_error (q_states ket) j) as [k|] eqn:Ek; [|apply nth_error_None in Ek; lia].
  cbn [get bind]. destruct Hbra as (HJb & _ & Sb). destruct Hket as (HJk & _ & Sk).
  destruct (Sb b (nth_error_In _ _ Eb)) as (B1 & B2 & B3 & B4). destruct (Sk k (nth_error_In _ _ Ek)) as (K1 & K2 & K3 & K4). rewrite !rem_odd by lia.
  destruct (Nat.eqb (p_i1 b) (p_i2 b) && negb (Z.odd (q_J bra + Tb))) eqn:Likeb.
  { apply andb_true_iff in Likeb. destruct Likeb as [Eqb Odb]. apply Nat.eqb_eq in Eqb. apply negb_true_iff in Odb. destruct (B3 Eqb) as [Ob Odd].
    exists m. split; [reflexivity|]. split; [exact Hr|]. split; [exact Hc|]. intros x y _ _. unfold pn_value. rewrite like_zero_bra by (try assumption; lia). destruct (Nat.eqb x i && Nat.eqb y j); ring. }
  destruct (Nat.eqb (p_i1 k) (p_i2 k) && negb (Z.odd (q_J ket + Tk))) eqn:Likek.
  { apply andb_true_iff in Likek. destruct Likek as [Eqk Odk]. apply Nat.eqb_eq in Eqk. apply negb_true_iff in Odk. destruct (K3 Eqk) as [Ok' Odd].
    exists m. split; [reflexivity|]. split; [exact Hr|]. split; [exact Hc|]. intros x y _ _. unfold pn_value. rewrite like_zero_ket by (try assumption; lia). destruct (Nat.eqb x i && Nat.eqb y j); ring. }
  destruct (ordered (q_J bra) Tb b) as [fb lb] eqn:Ob. destruct (ordered (q_J ket) Tk k) as [fk lk] eqn:Ok_.
  destruct (phase_ordered (q_J bra) Tb (q_g bra) b lb fb B1 B2 Ob) as (Elb & Pb & _). destruct (phase_ordered (q_J ket) Tk (q_g ket) k lk fk K1 K2 Ok_) as (Elk & _ & Pk).
  destruct (find_pair (t_states tb) lb) as (ib & Fb & Nb).
  { rewrite Elb. apply B4; [eapply nth_error_In; exact Etb|congruence|congruence|]. intros E. rewrite Jb', Tb'. rewrite E, Nat.eqb_refl in Likeb. cbn in Likeb. apply negb_false_iff in Likeb. exact Likeb. }
  destruct (find_pair (t_states tk) lk) as (ik & Fk & Nk).
  { rewrite Elk. apply K4; [eapply nth_error_In; exact Etk|congruence|congruence|]. intros E. rewrite Jk', Tk'. rewrite E, Nat.eqb_refl in Likek. cbn in Likek. apply negb_false_iff in Likek. exact Likek. }
  rewrite Fb, Fk. destruct (Hval ib ik lb lk Nb Nk) as (ib' & ik' & fc & x & Ec & Ex & Ev). rewrite Ec, Ex. cbn [bind].
  unfold mat_put. rewrite Hr, Hc. replace (Nat.ltb i (length (q_states bra))) with true by (symmetry; apply Nat.ltb_lt; exact Hi).
  replace (Nat.ltb j (length (q_states ket))) with true by (symmetry; apply Nat.ltb_lt; exact Hj). cbn [andb cassert bind].
  eexists. split; [reflexivity|]. cbn [mset rows cols at_]. split; [exact Hr|]. split; [exact Hc|]. intros u v _ _.
  destruct (Nat.eqb_spec u i) as [->|]; cbn [andb]; [|ring]. destruct (Nat.eqb_spec v j) as [->|]; cbn [andb]; [|ring].
  rewrite expansion_norm. unfold pn_value. rewrite Pb, Pk. rewrite <- Lb, <- Lk, <- Ev. ring.
Qed.
(** all of them *)
Lemma branch_value : T0_max <= 2 -> exists m, branch f T0_min T0_max sp c bra ket diagonal = Ok m /\ rows m = length (q_states bra) /\ cols m = length (q_states ket)
  /\ forall i j b k, nth_error (q_states bra) i = Some b -> nth_error (q_states ket) j = Some k ->
     at_ m i j = if diagonal && negb (Nat.leb i j) then 0%R else wigner_eckart T0_min T0_max F bra ket b k.
Proof.
  intros Hmax. unfold branch. replace (0 <=? q_Tz bra - q_Tz ket) with true by (symmetry; apply Z.leb_le; exact HTz). cbn [cassert bind].
  destruct Hbra as (_ & Hzb & _). destruct Hket as (_ & Hzk & _).
  pose proof (fun T0 Hin1 Hin2 Tb Hb => adds_each (length (q_states bra)) (length (q_states ket)) _ (fun Tk m => branch_sector (f T0) sp c bra ket diagonal T0 Tb Tk m) (zrange (Z.abs (q_Tz ket)) 1)
     (fun Tk Hk => sector_adds T0 Tb Tk Hin1 Hin2 Hb (proj1 (in_zrange _ _ _) Hk))) as A1.
  pose proof (fun T0 Hin1 Hin2 => adds_each _ _ _ (fun Tb m => for_each (zrange (Z.abs (q_Tz ket)) 1) (fun Tk m => branch_sector (f T0) sp c bra ket diagonal T0 Tb Tk m) m) (zrange (Z.abs (q_Tz bra)) 1)
     (fun Tb Hb => A1 T0 Hin1 Hin2 Tb (proj1 (in_zrange _ _ _) Hb))) as A2.
  assert (Hr : forall T0, In T0 (zrange (Z.max T0_min (q_Tz bra - q_Tz ket)) T0_max) -> T0_min <= T0 <= T0_max /\ q_Tz bra - q_Tz ket <= T0) by (intros T0 H; apply in_zrange in H; lia).
  pose proof (adds_each _ _ _ _ (zrange (Z.max T0_min (q_Tz bra - q_Tz ket)) T0_max) (fun T0 Hin => A2 T0 (proj1 (Hr T0 Hin)) (proj2 (Hr T0 Hin)))) as A3.
  destruct (A3 (mzero 0%R (length (q_states bra)) (length (q_states ket))) eq_refl eq_refl) as (m & E & Rm & Cm & Hat).
  exists m. split; [exact E|]. split; [exact Rm|]. split; [exact Cm|]. intros i j b k Eb Ek.
  rewrite Hat by (apply nth_error_Some; congruence). cbn [mzero at_]. rewrite Rplus_0_l. rewrite Eb, Ek.
  destruct (diagonal && negb (Nat.leb i j)).
  { apply lsum_0. intros. apply lsum_0. intros. apply lsum_0. reflexivity. }
  unfold wigner_eckart. symmetry.
  assert (Hcg : forall T0 Tb Tk, (T0 < q_Tz bra - q_Tz ket \/ Tb < Z.abs (q_Tz bra) \/ Tk < Z.abs (q_Tz ket)) -> cg Tk (q_Tz ket) T0 (q_Tz bra - q_Tz ket) Tb (q_Tz bra) = 0%R).
  { intros T0 Tb Tk H. apply cg_zero. rewrite !andb_false_iff, !Z.leb_gt. lia. }
  rewrite (lsum_zrange_from (Z.max T0_min (q_Tz bra - q_Tz ket))).
  - apply lsum_ext. intros T0 HT0. change [0; 1] with (zrange 0 1).
    rewrite (lsum_zrange_from (Z.abs (q_Tz bra))).
    + apply lsum_ext. intros Tb HTb. rewrite (lsum_zrange_from (Z.abs (q_Tz ket))).
      * reflexivity.
      * lia.
      * intros Tk HTk. rewrite Hcg by lia. ring.
    + lia.
    + intros Tb HTb. apply lsum_0. intros Tk _. rewrite Hcg by lia. ring.
  - lia.
  - intros T0 HT0. apply lsum_0. intros Tb _. apply lsum_0. intros Tk _. rewrite Hcg by lia. ring.
Qed.
End BRANCH.
