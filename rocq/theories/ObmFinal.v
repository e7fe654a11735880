(** Lemmas for C83-C87, continued. *)
From Coq Require Import String List ZArith Reals Bool Lra Lia.
From Verif Require Import Base BaseLemmas RMat H2Model MapModel OscModel OscSpec BlockModel BlockSpec BlockProof BlockFinal ObioModel ObioProof ObioFinal
  MixModel MixFinal ObmModel ObmSpec ObmProof.
Import ListNotations.
Open Scope R_scope.
Open Scope outcome_scope.

Lemma selection_allowed : forall J0 g0 Tz0 a b, selection J0 g0 Tz0 a b = true <-> allowed (J0, g0, Tz0) a b.
Proof.
  intros. unfold selection, allowed, triangle_2, coupled. rewrite !andb_true_iff, !Z.leb_le, Z.even_spec, Z.eqb_eq. tauto.
Qed.
Lemma sectors_allowed : forall sp q I K x y, nth_error sp I = Some x -> nth_error sp K = Some y -> (In (I, K) (sectors_of sp sp q) <-> allowed q (fst x) (fst y)).
Proof.
  intros sp [[J0 g0] Tz0] I K x y Hx Hy. rewrite sectors_in, <- selection_allowed. split.
  - intros (x' & y' & Hx' & Hy' & H). congruence.
  - intros H. eauto.
Qed.
Lemma orbital_state : forall sp I i a n, orbital_at sp I i a n -> exists ns, nth_error sp I = Some (a, ns) /\ nth_error ns i = Some n /\ (I < length sp)%nat /\ (i < length ns)%nat
  /\ sub_dim sp I = length ns.
Proof.
  intros sp I i a n (ns & H1 & H2). exists ns. unfold sub_dim. rewrite H1. repeat split; auto; apply nth_error_Some; congruence.
Qed.
Lemma orbital_sub : forall sp I i a n, orbital_at sp I i a n -> state sp I i.
Proof. intros sp I i a n H. destruct (orbital_state _ _ _ _ _ H) as (ns & _ & _ & H1 & H2 & H3). split; [exact H1|lia]. Qed.
Lemma state_orbital : forall sp I i, state sp I i -> exists a n, orbital_at sp I i a n.
Proof.
  intros sp I i [H1 H2]. unfold sub_dim in H2. destruct (nth_error sp I) as [[a ns]|] eqn:E; [|lia].
  destruct (nth_error ns i) as [n|] eqn:E2; [|apply nth_error_None in E2; lia]. exists a, n, ns. auto.
Qed.
(** states of equal index have equal n and conversely *)
Lemma aligned_eq : forall sp I i K k a n b n', aligned sp -> distinct_n sp -> orbital_at sp I i a n -> orbital_at sp K k b n' -> (i = k <-> n = n').
Proof.
  intros sp I i K k a n b n' Ha Hd (ns & H1 & H2) (ns' & H3 & H4). split.
  - intros <-. apply (Ha I K i); eexists; cbn; eauto.
  - intros <-. unfold distinct_n in Hd. rewrite Forall_forall in Hd.
    assert (N1 := Hd _ (nth_error_In _ _ H1)). assert (N2 := Hd _ (nth_error_In _ _ H3)). cbn in N1, N2.
    assert (i < length ns)%nat by (apply nth_error_Some; congruence). assert (k < length ns')%nat by (apply nth_error_Some; congruence).
    destruct (Nat.lt_trichotomy i k) as [L|[E|L]]; [|exact E|].
    + destruct (nth_error ns' i) as [m|] eqn:Em; [|apply nth_error_None in Em; lia].
      assert (n = m) by (apply (Ha I K i); eexists; cbn; eauto). subst m. rewrite NoDup_nth_error in N2. apply N2; [lia|congruence].
    + destruct (nth_error ns k) as [m|] eqn:Em; [|apply nth_error_None in Em; lia].
      assert (m = n) by (apply (Ha I K k); eexists; cbn; eauto). subst m. rewrite NoDup_nth_error in N1. apply N1; [lia|congruence].
Qed.
Lemma eye_at : forall r c i k, at_ (eye r c) i k = if Nat.eqb i k then 1 else 0.
Proof. reflexivity. Qed.
(** blocks that are multiples of the identity *)
Lemma eye_blocks : forall sp q f, exists r,
  sector_blocks sp (fun b k => Ok (block_scale (f (fst b) (fst k)) (eye (length (snd b)) (length (snd k))))) (sectors_of sp sp q) = Ok r /\ tensor_op sp q (sectors_of sp sp q) r
  /\ forall I i K k a n b n', orbital_at sp I i a n -> orbital_at sp K k b n' ->
    (allowed q a b -> entry (sectors_of sp sp q) r I i K k = if Nat.eqb i k then f a b else 0) /\ (~ allowed q a b -> entry (sectors_of sp sp q) r I i K k = 0).
Proof.
  intros sp q f.
  destruct (sector_blocks_ok sp (fun b k => Ok (block_scale (f (fst b) (fst k)) (eye (length (snd b)) (length (snd k)))))
    (fun I i K k => match nth_error sp I, nth_error sp K with Some x, Some y => if Nat.eqb i k then f (fst x) (fst y) else 0 | _, _ => 0 end)
    (sectors_of sp sp q) (sectors_nodup _ _ _) (sectors_range _ _ _)) as (r & E & O & A).
  - intros I K x y _ Hx Hy. eexists. split; [reflexivity|]. split; [reflexivity|]. split; [reflexivity|]. intros i k _ _. rewrite Hx, Hy. cbn [block_scale at_ eye].
    destruct (Nat.eqb i k); ring.
  - exists r. split; [exact E|]. split; [split; [exact O|reflexivity]|]. intros I i K k a n b n' H1 H2.
    destruct (orbital_state _ _ _ _ _ H1) as (ns & E1 & _ & _ & L1 & D1). destruct (orbital_state _ _ _ _ _ H2) as (ns' & E2 & _ & _ & L2 & D2). split; intros Hal.
    + rewrite A; [rewrite E1, E2; reflexivity|apply (sectors_allowed sp q I K _ _ E1 E2); exact Hal|lia|lia].
    + apply entry_absent. rewrite (sectors_allowed sp q I K _ _ E1 E2). exact Hal.
Qed.
Section Am.
Variable am_rme : am_type -> Z -> Z -> Z -> Z -> R.
Theorem am_ok : forall t sp, aligned sp -> distinct_n sp -> exists r, angular_momentum am_rme t sp (1, 0, 0)%Z (sectors_of sp sp (1, 0, 0)%Z) = Ok r
  /\ tensor_op sp (1, 0, 0)%Z (sectors_of sp sp (1, 0, 0)%Z) r
  /\ elements sp (1, 0, 0)%Z (sectors_of sp sp (1, 0, 0)%Z) r (fun a n b n' => if (n =? n')%Z then am_rme t (ll_l a) (ll_2j a) (ll_l b) (ll_2j b) else 0).
Proof.
  intros t sp Ha Hd. destruct (eye_blocks sp (1, 0, 0)%Z (fun b k => am_rme t (ll_l b) (ll_2j b) (ll_l k) (ll_2j k))) as (r & E & O & A).
  exists r. split; [exact E|]. split; [exact O|]. intros I i K k a n b n' H1 H2. destruct (A I i K k a n b n' H1 H2) as [A1 A2]. split; [|exact A2]. intros H. rewrite (A1 H).
  assert (X := aligned_eq sp I i K k a n b n' Ha Hd H1 H2). destruct (Nat.eqb_spec i k), (Z.eqb_spec n n'); tauto.
Qed.
Theorem am_refused : forall t sp q s, q <> (1, 0, 0)%Z -> angular_momentum am_rme t sp q s = AssertFail.
Proof.
  intros t sp [[J0 g0] Tz0] s H. unfold angular_momentum. destruct (Z.eqb_spec J0 1); [|reflexivity]. destruct (Z.eqb_spec g0 0); [|reflexivity].
  destruct (Z.eqb_spec Tz0 0); [|reflexivity]. subst. congruence.
Qed.
End Am.
Lemma scalar_labels : forall a b, spin_half a -> spin_half b -> allowed (0, 0, 0)%Z a b -> a = b.
Proof.
  intros [s l j] [s' l' j'] (H1 & H2 & H3) (H4 & H5 & H6) (C & [w E] & T). unfold coupled in C. unfold two_tz in T. cbn [ll_l ll_2j ll_sp] in *. f_equal; [destruct s, s'; congruence || lia|lia|lia].
Qed.
Lemma scalar_self : forall a, spin_half a -> allowed (0, 0, 0)%Z a a.
Proof. intros [s l j] (H1 & H2 & H3). unfold allowed, coupled. cbn [ll_l ll_2j ll_sp] in *. split; [lia|]. split; [exists l; lia|lia]. Qed.
Lemma space_spin_half : forall sp I a ns, orbital_space sp -> nth_error sp I = Some (a, ns) -> spin_half a.
Proof. intros sp I a ns H E. unfold orbital_space in H. rewrite Forall_forall in H. exact (proj1 (H _ (nth_error_In _ _ E))). Qed.
Lemma label_index : forall sp I K a ns ns', distinct_labels sp -> nth_error sp I = Some (a, ns) -> nth_error sp K = Some (a, ns') -> I = K.
Proof. intros sp I K a ns ns' H H1 H2. apply (label_unique sp I K a H); unfold label_of; [rewrite H1|rewrite H2]; reflexivity. Qed.
Theorem am_square_ok : forall t sp, orbital_space sp -> distinct_labels sp -> exists r, angular_momentum_squared t sp (0, 0, 0)%Z (sectors_of sp sp (0, 0, 0)%Z) = Ok r
  /\ tensor_op sp (0, 0, 0)%Z (sectors_of sp sp (0, 0, 0)%Z) r
  /\ forall I i K k a n, orbital_at sp I i a n -> state sp K k -> entry (sectors_of sp sp (0, 0, 0)%Z) r I i K k = if Nat.eqb I K && Nat.eqb i k then casimir t a else 0.
Proof.
  intros t sp Hs Hd. set (s := sectors_of sp sp (0, 0, 0)%Z).
  assert (D : forall I K, In (I, K) s -> I = K).
  { intros I K Hin. destruct (sectors_range _ _ _ _ Hin) as [HI HK]. cbn [fst snd] in HI, HK.
    destruct (nth_error sp I) as [[a ns]|] eqn:Ex; [|apply nth_error_None in Ex; lia]. destruct (nth_error sp K) as [[b ns']|] eqn:Ey; [|apply nth_error_None in Ey; lia].
    apply (sectors_allowed sp _ I K _ _ Ex Ey) in Hin. cbn [fst] in Hin.
    assert (a = b) by (apply scalar_labels; [exact (space_spin_half _ _ _ _ Hs Ex)|exact (space_spin_half _ _ _ _ Hs Ey)|exact Hin]). subst b. exact (label_index sp I K a ns ns' Hd Ex Ey). }
  assert (E : angular_momentum_squared t sp (0, 0, 0)%Z s = sector_blocks sp (fun b k => Ok (block_scale (am_square t (fst b)) (eye (length (snd b)) (length (snd k))))) s).
  { unfold angular_momentum_squared, sector_blocks. cbn [Z.eqb cassert bind].
    assert (G : forall l, incl l s -> map_blocks (fun x : nat * nat => b <- get (nth_error sp (fst x)) ;; k <- get (nth_error sp (snd x)) ;; cassert (Nat.eqb (fst x) (snd x)) ;;;
       Ok (block_scale (am_square t (fst b)) (eye (length (snd b)) (length (snd k))))) l
     = map_blocks (fun x : nat * nat => b <- get (nth_error sp (fst x)) ;; k <- get (nth_error sp (snd x)) ;; Ok (block_scale (am_square t (fst b)) (eye (length (snd b)) (length (snd k))))) l).
    { induction l as [|[I K] l IH]; intros Hl; [reflexivity|]. cbn [map_blocks]. rewrite IH by (intros z Hz; apply Hl; right; exact Hz). cbn [fst snd].
      rewrite (D I K) by (apply Hl; left; reflexivity). rewrite Nat.eqb_refl. reflexivity. }
    apply G. apply incl_refl. }
  destruct (eye_blocks sp (0, 0, 0)%Z (fun b k => am_square t b)) as (r & E' & O & A).
  exists r. split; [rewrite E; exact E'|]. split; [exact O|]. intros I i K k a n H1 H2. destruct (state_orbital _ _ _ H2) as (b & n' & H3).
  destruct (A I i K k a n b n' H1 H3) as [A1 A2]. destruct (orbital_state _ _ _ _ _ H1) as (ns & E1 & _). destruct (orbital_state _ _ _ _ _ H3) as (ns' & E2 & _).
  assert (Ha := space_spin_half _ _ _ _ Hs E1).
  destruct (Nat.eqb_spec I K) as [->|Hne].
  - rewrite E1 in E2. injection E2 as <- <-. unfold s. rewrite (A1 (scalar_self a Ha)). cbn [andb]. destruct (Nat.eqb i k); [|reflexivity]. unfold am_square, casimir.
    destruct t; [rewrite mult_IZR, plus_IZR; ring|lra|rewrite plus_IZR; lra].
  - apply entry_absent. intros Hin. exact (Hne (D _ _ Hin)).
Qed.
Theorem am_square_refused : forall t sp q s, q <> (0, 0, 0)%Z -> angular_momentum_squared t sp q s = AssertFail.
Proof.
  intros t sp [[J0 g0] Tz0] s H. unfold angular_momentum_squared. destruct (Z.eqb_spec J0 0); [|reflexivity]. destruct (Z.eqb_spec g0 0); [|reflexivity].
  destruct (Z.eqb_spec Tz0 0); [|reflexivity]. subst. congruence.
Qed.

(** ** isospin *)
Definition tz_factor (Tz0 : Z) (b : llabel) : R := if (Tz0 =? 0)%Z then IZR (two_tz b) / 2 else 1.
Lemma isospin_blocks : forall sp Tz0, exists r, isospin sp (0, 0, Tz0)%Z (sectors_of sp sp (0, 0, Tz0)%Z) = Ok r /\ tensor_op sp (0, 0, Tz0)%Z (sectors_of sp sp (0, 0, Tz0)%Z) r
  /\ forall I i K k a n b n', orbital_at sp I i a n -> orbital_at sp K k b n' ->
    (allowed (0, 0, Tz0)%Z a b -> entry (sectors_of sp sp (0, 0, Tz0)%Z) r I i K k = if Nat.eqb i k then tz_factor Tz0 b else 0)
    /\ (~ allowed (0, 0, Tz0)%Z a b -> entry (sectors_of sp sp (0, 0, Tz0)%Z) r I i K k = 0).
Proof.
  intros sp Tz0. destruct (eye_blocks sp (0, 0, Tz0)%Z (fun _ k => tz_factor Tz0 k)) as (r & E & O & A). exists r. split; [exact E|]. split; [exact O|exact A].
Qed.
Theorem isospin_ok : forall sp Tz0, aligned sp -> distinct_n sp -> exists r, isospin sp (0, 0, Tz0)%Z (sectors_of sp sp (0, 0, Tz0)%Z) = Ok r
  /\ tensor_op sp (0, 0, Tz0)%Z (sectors_of sp sp (0, 0, Tz0)%Z) r
  /\ elements sp (0, 0, Tz0)%Z (sectors_of sp sp (0, 0, Tz0)%Z) r
       (fun a n b n' => if (n =? n')%Z then if (Tz0 =? 0)%Z then match ll_sp b with SP => 1 / 2 | SN => - (1 / 2) end else 1 else 0).
Proof.
  intros sp Tz0 Ha Hd. destruct (isospin_blocks sp Tz0) as (r & E & O & A). exists r. split; [exact E|]. split; [exact O|].
  intros I i K k a n b n' H1 H2. destruct (A I i K k a n b n' H1 H2) as [A1 A2]. split; [|exact A2]. intros H. rewrite (A1 H).
  assert (X := aligned_eq sp I i K k a n b n' Ha Hd H1 H2). unfold tz_factor, two_tz. destruct (Nat.eqb_spec i k), (Z.eqb_spec n n'); try tauto.
  destruct (Tz0 =? 0)%Z; [|reflexivity]. destruct (ll_sp b); lra.
Qed.
Lemma flip_flip : forall a, flip (flip a) = a.
Proof. intros [[] l j]; reflexivity. Qed.
Lemma charge_labels : forall T a b, spin_half a -> spin_half b -> (T = 1 \/ T = -1)%Z -> (allowed (0, 0, T)%Z a b <-> b = flip a /\ two_tz a = T).
Proof.
  intros T [s l j] [s' l' j'] (H1 & H2 & H3) (H4 & H5 & H6) HT. split.
  - intros (C & [w E] & Q). unfold coupled in C. unfold two_tz, flip in *. cbn [ll_l ll_2j ll_sp] in *. assert (l = l') by lia. assert (j = j') by lia. subst. destruct s, s'; lia || (split; [reflexivity|lia]).
  - intros [E Q]. injection E as -> -> ->. unfold allowed, coupled, two_tz in *. cbn [ll_l ll_2j ll_sp] in *. split; [lia|]. split; [exists l; lia|]. destruct s; lia.
Qed.
(** t- is the adjoint of t+ *)
Theorem isospin_adjoint : forall sp p m, isospin sp (0, 0, 1)%Z (sectors_of sp sp (0, 0, 1)%Z) = Ok p -> isospin sp (0, 0, -1)%Z (sectors_of sp sp (0, 0, -1)%Z) = Ok m ->
  forall I i K k, state sp I i -> state sp K k -> entry (sectors_of sp sp (0, 0, -1)%Z) m I i K k = entry (sectors_of sp sp (0, 0, 1)%Z) p K k I i.
Proof.
  intros sp p m Ep Em I i K k H1 H2. destruct (state_orbital _ _ _ H1) as (a & n & H3). destruct (state_orbital _ _ _ H2) as (b & n' & H4).
  destruct (isospin_blocks sp 1) as (p' & Ep' & _ & Ap). rewrite Ep' in Ep. injection Ep as <-. destruct (isospin_blocks sp (-1)) as (m' & Em' & _ & Am). rewrite Em' in Em. injection Em as <-.
  destruct (Ap K k I i b n' a n H4 H3) as [P1 P2]. destruct (Am I i K k a n b n' H3 H4) as [M1 M2].
  assert (X : allowed (0, 0, -1)%Z a b <-> allowed (0, 0, 1)%Z b a).
  { unfold allowed, coupled. split; intros (C & [w E] & Q); (split; [lia|]; split; [exists w; lia|lia]). }
  destruct (selection 0 0 (-1) a b) eqn:Es.
  - apply selection_allowed in Es. rewrite (M1 Es), (P1 (proj1 X Es)). rewrite Nat.eqb_sym. reflexivity.
  - assert (N : ~ allowed (0, 0, -1)%Z a b) by (rewrite <- selection_allowed, Es; discriminate). rewrite (M2 N). symmetry. apply P2. rewrite <- X. exact N.
Qed.
(** [t+, t-] = 2 tz *)
Lemma charge_entry : forall sp T r, orbital_space sp -> distinct_labels sp -> charge_symmetric sp -> (T = 1 \/ T = -1)%Z ->
  isospin sp (0, 0, T)%Z (sectors_of sp sp (0, 0, T)%Z) = Ok r ->
  forall I i K k a n b n', orbital_at sp I i a n -> orbital_at sp K k b n' ->
  (b = flip a -> two_tz a = T -> entry (sectors_of sp sp (0, 0, T)%Z) r I i K k = if Nat.eqb i k then 1 else 0)
  /\ (b <> flip a \/ two_tz a <> T -> entry (sectors_of sp sp (0, 0, T)%Z) r I i K k = 0).
Proof.
  intros sp T r Hs Hd Hc HT E I i K k a n b n' H1 H2. destruct (isospin_blocks sp T) as (r' & E' & _ & A). rewrite E' in E. injection E as <-.
  destruct (A I i K k a n b n' H1 H2) as [A1 A2]. destruct (orbital_state _ _ _ _ _ H1) as (ns & E1 & _). destruct (orbital_state _ _ _ _ _ H2) as (ns' & E2 & _).
  assert (X := charge_labels T a b (space_spin_half _ _ _ _ Hs E1) (space_spin_half _ _ _ _ Hs E2) HT). split.
  - intros Hb Ha. rewrite (A1 (proj2 X (conj Hb Ha))). unfold tz_factor. destruct (Z.eqb_spec T 0); [lia|reflexivity].
  - intros H. apply A2. rewrite X. tauto.
Qed.
Lemma partner : forall sp I i a n, charge_symmetric sp -> orbital_at sp I i a n -> exists P, orbital_at sp P i (flip a) n.
Proof.
  intros sp I i a n Hc (ns & H1 & H2). destruct (In_nth_error _ _ (Hc _ _ (nth_error_In _ _ H1))) as [P HP]. exists P, ns. auto.
Qed.
Lemma ladder_product : forall sp T r r', orbital_space sp -> distinct_labels sp -> charge_symmetric sp -> (T = 1 \/ T = -1)%Z ->
  isospin sp (0, 0, T)%Z (sectors_of sp sp (0, 0, T)%Z) = Ok r -> isospin sp (0, 0, - T)%Z (sectors_of sp sp (0, 0, - T)%Z) = Ok r' ->
  forall I i K k a n, orbital_at sp I i a n -> state sp K k ->
  ssum sp (fun P x => entry (sectors_of sp sp (0, 0, T)%Z) r I i P x * entry (sectors_of sp sp (0, 0, - T)%Z) r' P x K k)
  = if Nat.eqb I K && Nat.eqb i k && (two_tz a =? T)%Z then 1 else 0.
Proof.
  intros sp T r r' Hs Hd Hc HT E E' I i K k a n H1 H2. destruct (state_orbital _ _ _ H2) as (b & n' & H3).
  destruct (Z.eqb_spec (two_tz a) T) as [Ha|Ha].
  - destruct (partner sp I i a n Hc H1) as [P HP]. rewrite (ssum_one sp P i); [|exact (orbital_sub _ _ _ _ _ HP)|].
    + rewrite (proj1 (charge_entry sp T r Hs Hd Hc HT E I i P i a n _ n H1 HP) eq_refl Ha), Nat.eqb_refl.
      destruct (charge_entry sp (- T) r' Hs Hd Hc ltac:(lia) E' P i K k _ n b n' HP H3) as [C1 C2]. rewrite flip_flip in *.
      assert (Hf : two_tz (flip a) = (- T)%Z) by (rewrite <- Ha; destruct a as [[] l j]; reflexivity).
      destruct (Nat.eqb_spec I K) as [<-|Hne].
      * destruct H1 as (ns & E1 & _). destruct H3 as (ns' & E3 & _). assert (b = a) by congruence. rewrite (C1 H Hf). cbn [andb]. destruct (Nat.eqb i k); cbn [andb]; ring.
      * rewrite C2; [cbn [andb]; ring|]. left. intros ->. destruct H1 as (ns & E1 & _). destruct H3 as (ns' & E3 & _). exact (Hne (label_index sp I K a ns ns' Hd E1 E3)).
    + intros J j HJ Hne. destruct (state_orbital _ _ _ HJ) as (c & nc & Hcj). destruct (charge_entry sp T r Hs Hd Hc HT E I i J j a n c nc H1 Hcj) as [C1 C2].
      destruct (selection 0 0 T a c) eqn:Es.
      * apply selection_allowed in Es. destruct (orbital_state _ _ _ _ _ H1) as (ns & E1 & _). destruct (orbital_state _ _ _ _ _ Hcj) as (ns' & E2 & _).
        apply (charge_labels T a c (space_spin_half _ _ _ _ Hs E1) (space_spin_half _ _ _ _ Hs E2) HT) in Es. destruct Es as [Ec Et]. rewrite (C1 Ec Et).
        destruct (Nat.eqb_spec i j); [|ring]. subst j c. destruct HP as (np & E4 & _). elim Hne. f_equal. exact (label_index sp J P _ ns' np Hd E2 E4).
      * assert (N : ~ allowed (0, 0, T)%Z a c) by (rewrite <- selection_allowed, Es; discriminate). destruct (isospin_blocks sp T) as (r0 & E0 & _ & A). rewrite E0 in E. injection E as <-.
        rewrite (proj2 (A I i J j a n c nc H1 Hcj) N). ring.
  - rewrite andb_false_r. apply ssum_0. intros J j HJ. destruct (state_orbital _ _ _ HJ) as (c & nc & Hcj). destruct (charge_entry sp T r Hs Hd Hc HT E I i J j a n c nc H1 Hcj) as [C1 C2].
    rewrite C2 by (right; exact Ha). ring.
Qed.
Theorem isospin_commutator : forall sp p m z, orbital_space sp -> distinct_labels sp -> charge_symmetric sp ->
  isospin sp (0, 0, 1)%Z (sectors_of sp sp (0, 0, 1)%Z) = Ok p -> isospin sp (0, 0, -1)%Z (sectors_of sp sp (0, 0, -1)%Z) = Ok m ->
  isospin sp (0, 0, 0)%Z (sectors_of sp sp (0, 0, 0)%Z) = Ok z ->
  forall I i K k, state sp I i -> state sp K k ->
  ssum sp (fun P x => entry (sectors_of sp sp (0, 0, 1)%Z) p I i P x * entry (sectors_of sp sp (0, 0, -1)%Z) m P x K k)
  - ssum sp (fun P x => entry (sectors_of sp sp (0, 0, -1)%Z) m I i P x * entry (sectors_of sp sp (0, 0, 1)%Z) p P x K k)
  = 2 * entry (sectors_of sp sp (0, 0, 0)%Z) z I i K k.
Proof.
  intros sp p m z Hs Hd Hc Ep Em Ez I i K k H1 H2. destruct (state_orbital _ _ _ H1) as (a & n & H3). destruct (state_orbital _ _ _ H2) as (b & n' & H4).
  change (0, 0, -1)%Z with (0, 0, - (1))%Z in Em |- *. rewrite (ladder_product sp 1 p m Hs Hd Hc (or_introl eq_refl) Ep Em I i K k a n H3 H2).
  change (0, 0, - (1))%Z with (0, 0, -1)%Z in Em |- *. change (0, 0, 1)%Z with (0, 0, - (-1))%Z in Ep |- *. rewrite (ladder_product sp (-1) m p Hs Hd Hc (or_intror eq_refl) Em Ep I i K k a n H3 H2).
  destruct (isospin_blocks sp 0) as (z' & Ez' & _ & A). rewrite Ez' in Ez. injection Ez as <-. destruct (A I i K k a n b n' H3 H4) as [A1 A2].
  destruct (orbital_state _ _ _ _ _ H3) as (ns & E1 & _). destruct (orbital_state _ _ _ _ _ H4) as (ns' & E2 & _). assert (Sa := space_spin_half _ _ _ _ Hs E1). assert (Sb := space_spin_half _ _ _ _ Hs E2).
  destruct (Nat.eqb_spec I K) as [<-|Hne].
  - rewrite E1 in E2. injection E2 as <- <-. rewrite (A1 (scalar_self a Sa)). unfold tz_factor. cbn [Z.eqb andb]. destruct (Nat.eqb i k); cbn [andb]; [|ring].
    unfold two_tz. destruct (ll_sp a); cbn; lra.
  - cbn [andb]. rewrite A2; [ring|]. intros H. apply scalar_labels in H; [|assumption|assumption]. subst b. exact (Hne (label_index sp I K a ns ns' Hd E1 E2)).
Qed.
