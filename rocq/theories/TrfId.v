(** C93: the relative identity becomes the two-body identity. *)
From Coq Require Import List ZArith Reals Bool Lia Lra.
From Verif Require Import Base BaseLemmas RMat OscModel OscFinal BlockModel BlockProof ObioModel ObioFinal MoshModel JpvModel JpvSpec JpvProof IsoModel XformFinal TrfModel TrfSpec TrfProof TrfFinal.
Import ListNotations.
Open Scope Z_scope.

Lemma delta_eq : forall A (dec : forall x y : A, {x = y} + {x <> y}) x, delta dec x x = 1%R.
Proof. intros. unfold delta. destruct (dec x x); congruence. Qed.
Lemma delta_ne : forall A (dec : forall x y : A, {x = y} + {x <> y}) x y, x <> y -> delta dec x y = 0%R.
Proof. intros. unfold delta. destruct (dec x y); congruence. Qed.
Lemma odd_sign : forall n, (if Z.odd n then 2 else 0)%R = (1 - sign n)%R.
Proof. intros n. unfold sign. rewrite <- Z.negb_odd. destruct (Z.odd n); cbn; ring. Qed.
Lemma sign_odd : forall n, Z.odd n = true -> sign n = (-1)%R.
Proof. intros n H. unfold sign. rewrite <- Z.negb_odd, H. reflexivity. Qed.

Section Id.
Variable u6jz : Z -> Z -> Z -> Z -> Z -> Z -> R.
Variable racah1 : Z -> Z -> Z -> Z -> Z -> Z -> Z -> R.
Variable Nmax : Z.
Hypothesis Hr : racah_scalar racah1.
Hypothesis Hu : u6_unitary u6jz Nmax.
Definition id_ls (T0 : Z) (x : lab) (p : four) (y : lab) (q : four) : R := (delta Z.eq_dec T0 0%Z * delta lab_dec x y * delta dec4 p q)%R.
Lemma relcm_id : forall Jmax T0 x p y q, lab_ok x -> lab_ok y -> cm_state x p -> cm_state y q -> b_N x <= Nmax -> Nmax + 1 <= Jmax -> couples (b_J x) 0 (b_J y) ->
  relcm_rme u6jz racah1 Jmax 0 id_rel T0 x p y q = id_ls T0 x p y q.
Proof.
  intros Jmax T0 x [[[Nr lr] Nc] lc] y [[[Nr' lr'] Nc'] lc'] Hx Hy Hp Hq HN HJm HJ. unfold relcm_rme, id_ls.
  destruct (Z.eqb_spec Nc Nc') as [<-|Hne]; [|cbn [andb]; rewrite (delta_ne _ dec4) by congruence; ring].
  destruct (Z.eqb_spec lc lc') as [<-|Hne]; [|cbn [andb]; rewrite (delta_ne _ dec4) by congruence; ring]. cbn [andb].
  assert (D : {T0 = 0 /\ lr = lr' /\ b_S x = b_S y /\ b_T x = b_T y /\ Nr = Nr'} + {~ (T0 = 0 /\ lr = lr' /\ b_S x = b_S y /\ b_T x = b_T y /\ Nr = Nr')}).
  { destruct (Z.eq_dec T0 0), (Z.eq_dec lr lr'), (Z.eq_dec (b_S x) (b_S y)), (Z.eq_dec (b_T x) (b_T y)), (Z.eq_dec Nr Nr'); (left; tauto) || (right; tauto). }
  destruct D as [(-> & <- & ES & ET & <-)|D].
  - assert (EJ : b_J x = b_J y) by (unfold couples in HJ; destruct Hx as (_ & _ & _ & ? & _), Hy as (_ & _ & _ & ? & _); unfold couples in *; lia).
    rewrite !delta_eq.
    transitivity (lsum (zrange 0 (lr + b_S x)) (fun Jr => if couplesb lr (b_S x) Jr && couplesb lc (b_J x) Jr then u6jz lr lc (b_L x) (b_J x) (b_S x) Jr * u6jz lr lc (b_L y) (b_J x) (b_S x) Jr else 0)%R).
    + transitivity (lsum (zrange 0 Jmax) (fun Jr => if couplesb lr (b_S x) Jr && couplesb lc (b_J x) Jr then u6jz lr lc (b_L x) (b_J x) (b_S x) Jr * u6jz lr lc (b_L y) (b_J x) (b_S x) Jr else 0)%R).
      * apply lsum_ext. intros Jr HJr. rewrite <- ES, <- EJ, <- ET.
        rewrite (lsum_one _ Z.eq_dec (zrange 0 Jmax) Jr _ (NoDup_zrange _ _) HJr).
        -- apply in_zrange in HJr. replace (couplesb Jr 0 Jr) with true by (symmetry; apply couplesb_ok; unfold couples; lia).
           destruct (couplesb lr (b_S x) Jr && couplesb lc (b_J x) Jr) eqn:Ec; cbn [andb]; [|reflexivity]. unfold id_rel. rewrite !delta_eq.
           apply andb_true_iff in Ec. destruct Ec as [_ Ec]. apply couplesb_ok in Ec. rewrite Hr; [ring|lia|unfold couples in *; lia].
        -- intros Jr' _ Hne. destruct (_ && _ && _); [|reflexivity]. unfold id_rel. rewrite (delta_ne _ dec4) by congruence. ring.
      * destruct Hp as (O1 & O2 & HNs & _). unfold osc in *. assert (HS := proj1 (proj2 Hx)).
        rewrite <- !(lsum_filter Z (fun Jr => couplesb lr (b_S x) Jr && couplesb lc (b_J x) Jr)).
        apply lsum_nodup_eq; try (apply NoDup_filter, NoDup_zrange). intros j. rewrite !filter_In, !in_zrange, andb_true_iff, !couplesb_ok. unfold couples. split; intros; lia.
    + destruct Hp as (O1 & O2 & HNs & HL & _), Hq as (_ & _ & HNs' & HL' & _). unfold osc in *. destruct Hx as (X1 & X2 & X3 & X4 & X5), Hy as (Y1 & Y2 & Y3 & Y4 & Y5).
      rewrite Hu; try assumption; try lia; [|rewrite EJ, ES; exact Y4].
      destruct (Z.eq_dec (b_L x) (b_L y)) as [E|E].
      * rewrite E, delta_eq. replace y with x; [rewrite delta_eq; ring|]. assert (EN : b_N x = b_N y) by lia. rewrite <- EN in Y5. rewrite <- X5 in Y5. destruct x, y. cbn in *. congruence.
      * rewrite (delta_ne _ Z.eq_dec) by exact E. rewrite (delta_ne _ lab_dec) by congruence. ring.
  - transitivity 0%R.
    + apply lsum_0. intros Jr _. apply lsum_0. intros Jr' _. destruct (_ && _ && _); [|reflexivity]. unfold id_rel.
      destruct (Z.eq_dec T0 0) as [->|E]; [|rewrite (delta_ne _ Z.eq_dec T0) by exact E; ring].
      destruct (Z.eq_dec Nr Nr') as [->|E]; [|rewrite (delta_ne _ Z.eq_dec Nr) by exact E; ring].
      rewrite (delta_ne _ dec4); [ring|]. intros E. injection E as -> ES _ ET. apply D. auto.
    + destruct (Z.eq_dec T0 0) as [->|E]; [|rewrite (delta_ne _ Z.eq_dec T0) by exact E; ring].
      destruct (lab_dec x y) as [<-|E]; [|rewrite (delta_ne _ lab_dec) by exact E; ring].
      rewrite (delta_ne _ dec4); [ring|]. intros E. injection E as -> ->. apply D. auto.
Qed.
End Id.

Section Tb.
Variable mosh : Z -> Z -> Z -> Z -> Z -> Z -> Z -> Z -> Z -> R.
Variable Nmax : Z.
Hypothesis Hm : bracket_unitary mosh Nmax.
Hypothesis He : bracket_exchange mosh Nmax.
Lemma lstates_in : forall N L p, In p (lstates N L) <-> lstate N L p.
Proof.
  intros N L [[[N1 l1] N2] l2]. unfold lstates, four, lstate, lstateb, osc. cbv zeta. rewrite filter_In, !in_prod_iff, !in_zrange, !andb_true_iff, couplesb_ok, !Z.leb_le, Z.eqb_eq.
  split; intros; [|unfold couples in *]; intuition lia.
Qed.
Lemma cm_split : forall x (f : four -> R), lsum (cm_states x) f = lsum (lstates (b_N x) (b_L x)) (fun p => let '(_, lr, _, _) := p in if Z.odd (lr + b_S x + b_T x) then f p else 0%R).
Proof.
  intros x f. transitivity (lsum (filter (fun p : four => let '(_, lr, _, _) := p in Z.odd (lr + b_S x + b_T x)) (lstates (b_N x) (b_L x))) f).
  - apply lsum_nodup_eq; [apply cm_states_nodup|apply NoDup_filter; unfold lstates; apply NoDup_filter; repeat apply NoDup_list_prod; apply NoDup_zrange|].
    intros [[[Nr lr] Nc] lc]. rewrite cm_states_in, filter_In, lstates_in. unfold cm_state, lstate. tauto.
  - rewrite lsum_filter. apply lsum_ext. intros [[[Nr lr] Nc] lc] _. reflexivity.
Qed.
Lemma lstate_swap : forall N L a, lstate N L a -> lstate N L (swap4 a).
Proof. intros N L [[[N1 l1] N2] l2] (H1 & H2 & H3 & H4). cbn. split; [exact H2|]. split; [exact H1|]. split; [lia|apply couples_sym; exact H4]. Qed.
Lemma tb_lstate : forall x a, tb_state x a -> lstate (b_N x) (b_L x) a.
Proof. intros x [[[N1 l1] N2] l2] (H1 & H2 & H3 & H4 & _). cbn. auto. Qed.
(** sum over the allowed relative-cm states *)
Lemma allowed_sum : forall x a b, b_N x <= Nmax -> tb_state x a -> tb_state x b -> ordered4 a -> ordered4 b ->
  (2 * lsum (cm_states x) (fun p => bracket_of mosh (b_L x) p a * bracket_of mosh (b_L x) p b) = delta dec4 a b * (1 + delta dec4 a (swap4 a)))%R.
Proof.
  intros x a b HN Ha Hb Oa Ob. destruct a as [[[N1 l1] N2] l2], b as [[[M1 k1] M2] k2]. set (a := (N1, l1, N2, l2) : four) in *. set (b := (M1, k1, M2, k2) : four) in *.
  set (s := (b_S x + b_T x + k1 + k2 + b_L x)%Z).
  assert (E : (2 * lsum (cm_states x) (fun p => bracket_of mosh (b_L x) p a * bracket_of mosh (b_L x) p b) = delta dec4 a b - sign s * delta dec4 a (swap4 b))%R).
  { rewrite cm_split, <- lsum_scale, <- (Hm (b_N x) (b_L x) a b), <- (Hm (b_N x) (b_L x) a (swap4 b)); try assumption; try (apply tb_lstate; assumption); try (apply lstate_swap, tb_lstate; assumption).
    rewrite <- lsum_scale, <- lsum_minus. apply lsum_ext. intros p Hp. apply lstates_in in Hp.
    assert (X := He (b_N x) (b_L x) p b HN Hp (tb_lstate _ _ Hb)). destruct p as [[[Nr lr] Nc] lc]. change (bracket_of mosh (b_L x) (Nr, lr, Nc, lc) (swap4 b) = (sign (lr + k1 + k2 + b_L x) * bracket_of mosh (b_L x) (Nr, lr, Nc, lc) b)%R) in X. rewrite X.
    transitivity ((if Z.odd (lr + b_S x + b_T x) then 2 else 0) * (bracket_of mosh (b_L x) (Nr, lr, Nc, lc) a * bracket_of mosh (b_L x) (Nr, lr, Nc, lc) b))%R.
    { destruct (Z.odd _); ring. }
    rewrite odd_sign. unfold s. replace (lr + b_S x + b_T x) with (lr + (b_S x + b_T x)) by lia. replace (b_S x + b_T x + k1 + k2 + b_L x) with ((b_S x + b_T x) + (k1 + k2 + b_L x)) by lia.
    replace (lr + k1 + k2 + b_L x) with (lr + (k1 + k2 + b_L x)) by lia. rewrite !sign_add. assert (Q := sign_sq (k1 + k2 + b_L x)). rewrite !sign_add in Q. 
    set (sk := (sign k1 * sign k2 * sign (b_L x))%R) in *. set (B := bracket_of mosh (b_L x) _ a). set (B' := bracket_of mosh (b_L x) _ b). set (sl := sign lr). set (st := (sign (b_S x) * sign (b_T x))%R).
    transitivity (B * B' - st * sl * (sk * sk) * (B * B'))%R; [rewrite Q; ring|ring]. }
  rewrite E. clear E. destruct (dec4 a b) as [Eab|Nab].
  - rewrite <- Eab, delta_eq. destruct (dec4 a (swap4 a)) as [Es|Es].
    + rewrite <- Es, delta_eq. injection Eab as <- <- <- <-. injection Es as E1 E2 _ _. subst N2 l2.
      assert (HO : Z.odd (b_L x + b_S x + b_T x) = true) by (apply Ha; reflexivity).
      rewrite (sign_odd s); [ring|]. unfold s. replace (b_S x + b_T x + l1 + l1 + b_L x) with (b_L x + b_S x + b_T x + 2 * l1) by lia. rewrite Z.odd_add, HO, Z.odd_mul. reflexivity.
    + rewrite (delta_ne _ dec4 a (swap4 a)) by exact Es. ring.
  - rewrite (delta_ne _ dec4 a b) by exact Nab. rewrite (delta_ne _ dec4 a (swap4 b)); [ring|]. intros E. apply Nab. unfold a, b in *. cbn [swap4] in E. injection E as -> -> -> ->.
    unfold ordered4 in Oa, Ob. assert (M1 = M2) by lia. subst. assert (k1 = k2) by lia. subst. reflexivity.
Qed.
Lemma tb_id : forall (G : Z -> lab -> four -> lab -> four -> R) T0 x a y b, (forall p q, cm_state x p -> cm_state y q -> G T0 x p y q = id_ls T0 x p y q) ->
  b_N x <= Nmax -> tb_state x a -> tb_state y b -> ordered4 a -> ordered4 b ->
  tb_rme mosh G T0 x a y b = (id_ls T0 x a y b * (1 + delta dec4 a (swap4 a)))%R.
Proof.
  intros G T0 x a y b HG HN Ha Hb Oa Ob. unfold tb_rme.
  transitivity (2 * lsum (cm_states x) (fun p => lsum (cm_states y) (fun q => bracket_of mosh (b_L x) p a * id_ls T0 x p y q * bracket_of mosh (b_L y) q b)))%R.
  { f_equal. apply lsum_ext. intros p Hp. apply lsum_ext. intros q Hq. rewrite HG by (apply cm_states_in; assumption). reflexivity. }
  unfold id_ls. destruct (Z.eq_dec T0 0) as [->|E].
  - destruct (lab_dec x y) as [<-|E].
    + rewrite !delta_eq. transitivity (2 * lsum (cm_states x) (fun p => bracket_of mosh (b_L x) p a * bracket_of mosh (b_L x) p b))%R; [|rewrite (allowed_sum x a b) by assumption; ring].
      f_equal. apply lsum_ext. intros p Hp. rewrite (lsum_one _ dec4 (cm_states x) p _ (cm_states_nodup x) Hp).
      * rewrite delta_eq. ring.
      * intros q _ Hne. rewrite (delta_ne _ dec4) by congruence. ring.
    + rewrite (delta_ne _ lab_dec) by exact E. rewrite lsum_0; [ring|]. intros p _. apply lsum_0. intros q _. ring.
  - rewrite (delta_ne _ Z.eq_dec) by exact E. rewrite lsum_0; [ring|]. intros p _. apply lsum_0. intros q _. ring.
Qed.
End Tb.

Section Jj.
Variable u9j : Z -> Z -> Z -> Z -> Z -> Z -> Z -> R.
Variable Nmax : Z.
Hypothesis Hn : u9_unitary u9j Nmax.
Hypothesis Hx9 : u9_exchange u9j Nmax.
Lemma sum_equal : forall J T l j1 j2 j1' j2', 0 <= l -> l + l <= Nmax -> 0 <= J ->
  half_j l j1 -> half_j l j2 -> half_j l j1' -> half_j l j2' -> 0 < j1 -> 0 < j2 -> 0 < j1' -> 0 < j2' -> couples j1 j2 (2 * J) -> couples j1' j2' (2 * J) ->
  j1 <= j2 -> j1' <= j2' -> (j1 = j2 -> Z.odd (J + T) = true) ->
  (2 * lsum (ls_couplings J) (fun c => if couplesb l l (fst c) && Z.odd (fst c + snd c + T) then u9j l j1 l j2 (fst c) (snd c) J * u9j l j1' l j2' (fst c) (snd c) J else 0)
  = delta Z.eq_dec j1 j1' * delta Z.eq_dec j2 j2' * (1 + delta Z.eq_dec j1 j2))%R.
Proof.
  intros J T l j1 j2 j1' j2' Hl HN HJ H1 H2 H3 H4 P1 P2 P3 P4 C1 C2 O1 O2 Ho.
  set (w := T + 1 + (j1' + j2') / 2 + J).
  assert (E : (2 * lsum (ls_couplings J) (fun c => if couplesb l l (fst c) && Z.odd (fst c + snd c + T) then u9j l j1 l j2 (fst c) (snd c) J * u9j l j1' l j2' (fst c) (snd c) J else 0)
     = delta Z.eq_dec j1 j1' * delta Z.eq_dec j2 j2' - sign w * (delta Z.eq_dec j1 j2' * delta Z.eq_dec j2 j1'))%R).
  { rewrite <- (Hn l j1 l j2 j1' j2' J), <- (Hn l j1 l j2 j2' j1' J) by (assumption || apply couples_sym; assumption).
    rewrite <- !lsum_scale, <- lsum_minus. apply lsum_ext. intros [L S] Hin. cbn [fst snd]. apply ls_couplings_in in Hin; [|exact HJ]. destruct Hin as (HS & HL & HC).
    destruct (couplesb l l L) eqn:Ec; [|cbn [andb]; ring]. cbn [andb]. apply couplesb_ok in Ec.
    rewrite (Hx9 l j1' l j2' L S J) by assumption.
    transitivity ((if Z.odd (L + S + T) then 2 else 0) * (u9j l j1 l j2 L S J * u9j l j1' l j2' L S J))%R; [destruct (Z.odd (L + S + T)); ring|]. rewrite odd_sign.
    assert (Q : (sign w * sign (l + l + L + 1 + S + (j1' + j2') / 2 + J) = sign (L + S + T))%R).
    { rewrite <- sign_add. apply sign_even. unfold w. set (h := (j1' + j2') / 2).
      replace (T + 1 + h + J + (l + l + L + 1 + S + h + J) + (L + S + T)) with (2 * (T + 1 + h + J + l + L + S)) by lia. apply Z.even_mul. }
    rewrite <- Q. ring. }
  rewrite E. clear E. destruct (Z.eq_dec j1 j1') as [<-|N1].
  - destruct (Z.eq_dec j2 j2') as [<-|N2].
    + rewrite !delta_eq. destruct (Z.eq_dec j1 j2) as [<-|N3].
      * rewrite !delta_eq. rewrite (sign_odd w); [ring|]. unfold w. replace ((j1 + j1) / 2) with j1 by (replace (j1 + j1) with (j1 * 2) by lia; rewrite Z.div_mul; lia).
        destruct H1 as [->| ->].
        -- replace (T + 1 + (2 * l + 1) + J) with (J + T + 2 * (l + 1)) by lia. rewrite Z.odd_add, (Ho eq_refl), Z.odd_mul. reflexivity.
        -- replace (T + 1 + (2 * l - 1) + J) with (J + T + 2 * l) by lia. rewrite Z.odd_add, (Ho eq_refl), Z.odd_mul. reflexivity.
      * rewrite (delta_ne _ Z.eq_dec j1 j2) by exact N3. ring.
    + rewrite (delta_ne _ Z.eq_dec j2 j2') by exact N2. destruct (Z.eq_dec j2 j1) as [->|N3]; [|rewrite (delta_ne _ Z.eq_dec j2 j1) by exact N3; ring].
      rewrite (delta_ne _ Z.eq_dec j1 j2') by exact N2. ring.
  - rewrite (delta_ne _ Z.eq_dec j1 j1') by exact N1. destruct (Z.eq_dec j1 j2') as [->|N2]; [|rewrite (delta_ne _ Z.eq_dec j1 j2') by exact N2; ring].
    rewrite (delta_ne _ Z.eq_dec j2 j1') by lia. ring.
Qed.
Lemma jj_id : forall (H : Z -> lab -> four -> lab -> four -> R) T0 X p Y q, 0 <= a_J X -> 0 <= a_J Y -> couples (a_J X) 0 (a_J Y) -> a_N X <= Nmax ->
  jj_state X p -> jj_state Y q -> ordered_jj p -> ordered_jj q -> jj_coupled X p -> jj_coupled Y q ->
  (forall L S L' S', 0 <= L -> 0 <= L' -> 0 <= S <= 1 -> 0 <= S' <= 1 -> couples L S (a_J X) -> couples L' S' (a_J Y) -> tb_stateb (ls_of X L S) (orbs p) = true -> tb_stateb (ls_of Y L' S') (orbs q) = true ->
     H T0 (ls_of X L S) (orbs p) (ls_of Y L' S') (orbs q) = (id_ls T0 (ls_of X L S) (orbs p) (ls_of Y L' S') (orbs q) * (1 + delta dec4 (orbs p) (swap4 (orbs p))))%R) ->
  jj_rme u9j H T0 X p Y q = id_jj T0 X p Y q.
Proof.
  intros H T0 X p Y q HJ HJ' HC HN Sp Sq Op Oq Cp Cq HH. unfold jj_rme.
  transitivity (lsum (ls_couplings (a_J X)) (fun c => lsum (ls_couplings (a_J Y)) (fun d =>
    let x := ls_of X (fst c) (snd c) in let y := ls_of Y (fst d) (snd d) in
    if tb_stateb x (orbs p) && tb_stateb y (orbs q) then
      nine u9j p (fst c) (snd c) (a_J X) * nine u9j q (fst d) (snd d) (a_J Y) * (id_ls T0 x (orbs p) y (orbs q) * (1 + delta dec4 (orbs p) (swap4 (orbs p))))
    else 0))%R).
  { apply lsum_ext. intros [L S] Hc. apply lsum_ext. intros [L' S'] Hd. apply ls_couplings_in in Hc, Hd; try assumption. destruct Hc as (A1 & A2 & A3), Hd as (B1 & B2 & B3). cbn [fst snd]. cbv zeta.
    destruct (tb_stateb _ (orbs p)) eqn:E1; [|reflexivity]. destruct (tb_stateb _ (orbs q)) eqn:E2; [|reflexivity]. cbn [andb]. rewrite HH by assumption. reflexivity. }
  assert (EJ : a_J X = a_J Y) by (unfold couples in HC; lia). unfold id_jj, id_ls.
  destruct (Z.eq_dec T0 0) as [->|NT].
  2:{ rewrite (delta_ne _ Z.eq_dec T0) by exact NT. rewrite lsum_0; [ring|]. intros c _. apply lsum_0. intros d _. cbv zeta. destruct (_ && _); ring. }
  destruct (jlab_dec X Y) as [<-|NX].
  2:{ rewrite (delta_ne _ jlab_dec) by exact NX. rewrite lsum_0; [ring|]. intros c _. apply lsum_0. intros d _. cbv zeta. destruct (_ && _); [|ring].
      rewrite (delta_ne _ lab_dec); [ring|]. intros E. apply NX. unfold ls_of in E. injection E as _ _ _ E2 E3 E4. destruct X, Y. cbn in *. congruence. }
  destruct (dec4 (orbs p) (orbs q)) as [Eo|No].
  2:{ rewrite (delta_ne _ pair_dec) by congruence. rewrite lsum_0; [ring|]. intros c _. apply lsum_0. intros d _. cbv zeta. destruct (_ && _); [|ring]. rewrite (delta_ne _ dec4 (orbs p)) by exact No. ring. }
  rewrite <- Eo, !delta_eq.
  transitivity ((1 + delta dec4 (orbs p) (swap4 (orbs p))) * lsum (ls_couplings (a_J X)) (fun c => if tb_stateb (ls_of X (fst c) (snd c)) (orbs p) then nine u9j p (fst c) (snd c) (a_J X) * nine u9j q (fst c) (snd c) (a_J X) else 0))%R.
  { rewrite <- lsum_scale. apply lsum_ext. intros c Hc.
    assert (dec : forall a b : Z * Z, {a = b} + {a <> b}) by (intros; decide equality; apply Z.eq_dec).
    rewrite (lsum_one _ dec (ls_couplings (a_J X)) c _ (ls_couplings_nodup _) Hc).
    - cbv zeta. destruct (tb_stateb _ (orbs p)); cbn [andb]; [rewrite delta_eq; ring|ring].
    - intros d _ Hne. cbv zeta. destruct (_ && _); [|reflexivity]. rewrite (delta_ne _ lab_dec); [ring|]. intros E. apply Hne. unfold ls_of in E. injection E as E1 E2. destruct c, d. cbn in *. congruence. }
  destruct p as [[[N1 l1] j1] [[N2 l2] j2]], q as [[[M1 k1] j1'] [[M2 k2] j2']]. cbn [orbs] in Eo |- *. injection Eo as <- <- <- <-.
  destruct Sp as ((L1 & _) & (L2 & _) & HNs). destruct Op as (Hj1 & Hj2 & O), Oq as (Hj1' & Hj2' & O'). destruct Cp as (P1 & P2 & C & Ho), Cq as (P1' & P2' & C' & Ho'). cbn [fst snd] in *.
  destruct (dec4 (N1, l1, N2, l2) (swap4 (N1, l1, N2, l2))) as [Es|Es].
  - cbn [swap4] in Es |- *. injection Es as E1 E2 _ _. subst N2 l2. rewrite delta_eq.
    transitivity (2 * lsum (ls_couplings (a_J X)) (fun c => if couplesb l1 l1 (fst c) && Z.odd (fst c + snd c + a_T X) then u9j l1 j1 l1 j2 (fst c) (snd c) (a_J X) * u9j l1 j1' l1 j2' (fst c) (snd c) (a_J X) else 0))%R.
    { f_equal. apply lsum_ext. intros c _. unfold tb_stateb, nine. cbn [ls_of b_L b_S b_T]. rewrite !Z.eqb_refl. cbn [andb negb orb]. reflexivity. }
    rewrite (sum_equal (a_J X) (a_T X) l1 j1 j2 j1' j2'); try assumption; try lia.
    + destruct (pair_dec (N1, l1, j1, (N1, l1, j2)) (N1, l1, j1', (N1, l1, j2'))) as [E|E].
      * injection E as <- <-. rewrite !delta_eq. destruct (Z.eq_dec j1 j2) as [<-|N]; [rewrite !delta_eq; ring|].
        rewrite (delta_ne _ Z.eq_dec) by exact N. rewrite (delta_ne _ orb_dec) by congruence. ring.
      * rewrite (delta_ne _ pair_dec) by exact E. destruct (Z.eq_dec j1 j1') as [<-|N]; [|rewrite (delta_ne _ Z.eq_dec j1 j1') by exact N; ring].
        rewrite (delta_ne _ Z.eq_dec j2 j2') by congruence. ring.
    + intros ->. apply Ho. reflexivity.
  - rewrite (delta_ne _ dec4) by exact Es. rewrite (delta_ne _ orb_dec); [|intros E; injection E as E1 E2 E3; apply Es; cbn; congruence].
    transitivity (lsum (ls_couplings (a_J X)) (fun c => if couplesb l1 l2 (fst c) then u9j l1 j1 l2 j2 (fst c) (snd c) (a_J X) * u9j l1 j1' l2 j2' (fst c) (snd c) (a_J X) else 0))%R.
    { rewrite Rplus_0_r, Rmult_1_l. apply lsum_ext. intros c _. unfold tb_stateb, nine. cbn [ls_of b_L b_S b_T].
      replace ((N1 =? N2) && (l1 =? l2)) with false by (symmetry; apply andb_false_iff; destruct (Z.eqb_spec N1 N2); [right; apply Z.eqb_neq; intros ->; apply Es; cbn; congruence|left; reflexivity]).
      cbn [negb orb]. rewrite andb_true_r. reflexivity. }
    rewrite (Hn l1 j1 l2 j2 j1' j2' (a_J X)); try assumption; try lia.
    destruct (pair_dec (N1, l1, j1, (N2, l2, j2)) (N1, l1, j1', (N2, l2, j2'))) as [E|E].
    + injection E as <- <-. rewrite !delta_eq. ring.
    + rewrite (delta_ne _ pair_dec) by exact E. destruct (Z.eq_dec j1 j1') as [<-|N]; [|rewrite (delta_ne _ Z.eq_dec j1 j1') by exact N; ring].
      rewrite (delta_ne _ Z.eq_dec j2 j2') by congruence. ring.
Qed.
End Jj.
Lemma stores_ext : forall A B (J T g : A -> Z) (sp : list (A * list B)) o c (G G' : Z -> A -> B -> A -> B -> R),
  (forall T0 x y a b, In x sp -> In y sp -> In a (snd x) -> In b (snd y) -> jt_rule (o_J0 o) T0 (o_g0 o) (J (fst x)) (T (fst x)) (g (fst x)) (J (fst y)) (T (fst y)) (g (fst y)) ->
     G T0 (fst x) a (fst y) b = G' T0 (fst x) a (fst y) b) ->
  stores J T g sp o c G -> stores J T g sp o c G'.
Proof.
  intros A B J T g sp o c G G' HG Hs T0 HT. destruct (Hs T0 HT) as (s & ms & E & Nd & Hin & Hb). exists s, ms. split; [exact E|]. split; [exact Nd|]. split; [exact Hin|].
  intros q i k x y Hq Hx Hy. destruct (Hb q i k x y Hq Hx Hy) as (m & Hm & R & C & V). exists m. split; [exact Hm|]. split; [exact R|]. split; [exact C|].
  intros u v a b Ha Hbb. rewrite (V u v a b Ha Hbb). apply HG; try (eapply nth_error_In; eassumption).
  destruct (proj1 (Hin i k) (nth_error_In _ _ Hq)) as (_ & x' & y' & Hx' & Hy' & Hr). rewrite Hx in Hx'. rewrite Hy in Hy'. injection Hx' as <-. injection Hy' as <-. exact Hr.
Qed.
Lemma id_hermitian : forall flip, flip_ok flip -> hermitian_rel flip id_rel.
Proof.
  intros flip Hf T0 x n y m P1 P2 P3 P4. unfold id_rel. destruct (dec4 x y) as [<-|N].
  - rewrite !delta_eq, Hf by assumption. destruct (Z.eq_dec n m) as [<-|N]; [rewrite delta_eq; ring|]. rewrite !(delta_ne _ Z.eq_dec) with (x := n) by exact N.
    rewrite (delta_ne _ Z.eq_dec m n) by congruence. ring.
  - rewrite (delta_ne _ dec4 x y) by exact N. rewrite (delta_ne _ dec4 y x) by congruence. ring.
Qed.
Theorem identity_ok : forall u6jz racah1 u9j mosh flip o rs c cm tb jj, coefficients_ok u6jz racah1 u9j mosh flip (rel_Nmax rs) ->
  o_J0 o = 0 -> 0 <= o_T0_min o -> o_T0_max o <= 2 ->
  rel_complete rs -> rel_Nmax rs + 1 <= rel_Jmax rs -> stores_rel rs o c id_rel -> cm_space cm -> Forall (fun x => b_N (fst x) <= rel_Nmax rs) cm ->
  tb_space tb -> covers cm tb -> jj_space jj -> ls_complete tb jj -> identity_states (rel_Nmax rs) jj ->
  exists c', moshinsky_rel u6jz racah1 u9j mosh flip o rs c cm tb jj = Ok c' /\ stores_jj jj o c' id_jj.
Proof.
  intros u6jz racah1 u9j mosh flip o rs c cm tb jj (Hf & Hrf & Hrs & Hu & Hm & He & Hn & Hx) HJ0 H0 H2 Hrel HJm Hst Hcm HcN Htb Hcov Hjj Hls Hid.
  destruct (moshinsky_rel_ok u6jz racah1 u9j mosh flip o rs c id_rel cm tb jj) as (c' & E & S); try assumption; [rewrite HJ0; exact Hrf|apply id_hermitian; exact Hf|].
  exists c'. split; [exact E|]. refine (stores_ext _ _ _ _ _ _ _ _ _ _ _ S). intros T0 X Y p q HX HY Hp Hq (R1 & R2 & R3). rewrite HJ0 in R1 |- *.
  unfold jj_space in Hjj. unfold identity_states in Hid. rewrite Forall_forall in Hjj, Hid. destruct (Hjj X HX) as (A1 & A2 & A3), (Hjj Y HY) as (B1 & B2 & B3).
  destruct (Hid X HX) as (C1 & C2 & C3), (Hid Y HY) as (D1 & D2 & D3). destruct (C3 p Hp) as [Op Kp], (D3 q Hq) as [Oq Kq].
  apply (jj_id u9j (rel_Nmax rs)); try assumption; try (apply A3 || apply B3; assumption).
  intros L S0 L' S' L1 L2 S1 S2 K1 K2 T1 T2.
  assert (TS : forall W r l s, jj_state W r -> tb_stateb (ls_of W l s) (orbs r) = true -> tb_state (ls_of W l s) (orbs r)).
  { intros W [[[N1 l1] j1] [[N2 l2] j2]] l s (O1 & O2 & O3) HT. unfold tb_stateb in HT. cbn [orbs ls_of b_L b_S b_T] in HT. apply andb_true_iff in HT. destruct HT as [HT1 HT2].
    apply couplesb_ok in HT1. cbn [orbs]. unfold tb_state. cbn [ls_of b_L b_S b_T b_N]. repeat split; try assumption; try apply O1; try apply O2.
    - apply HT1. - apply HT1. - intros EE. injection EE as -> ->. rewrite !Z.eqb_refl in HT2. exact HT2. }
  assert (LX : lab_ok (ls_of (fst X) L S0)) by (unfold lab_ok; cbn; auto). assert (LY : lab_ok (ls_of (fst Y) L' S')) by (unfold lab_ok; cbn; auto).
  apply (tb_id mosh (rel_Nmax rs) Hm He).
  - intros a b Ha Hb. apply (relcm_id u6jz racah1 (rel_Nmax rs) Hrs Hu); assumption.
  - exact C1.
  - apply TS; [apply A3; exact Hp|exact T1].
  - apply TS; [apply B3; exact Hq|exact T2].
  - apply (orbital_order (fst X)); [apply A3; exact Hp|exact Op].
  - apply (orbital_order (fst Y)); [apply B3; exact Hq|exact Oq].
Qed.
