From Coq Require Import List ZArith Reals Lra Lia Bool Psatz.
From Verif Require Import Base BaseLemmas RMat H2Model MapModel OscModel OscSpec OscProof OscFinal BlockModel BlockSpec.
Import ListNotations.
Open Scope R_scope.

(** ** lookups *)
Lemma find_ix_some : forall A (p : A -> bool) l i, find_ix p l = Some i -> exists x, nth_error l i = Some x /\ p x = true.
Proof.
  intros A p l. induction l as [|y l IH]; cbn; intros i H; [discriminate|]. destruct (p y) eqn:E.
  - injection H as <-. exists y. auto.
  - destruct (find_ix p l) as [k|]; [|discriminate]. injection H as <-. apply IH. reflexivity.
Qed.
Lemma find_ix_none : forall A (p : A -> bool) l, find_ix p l = None -> forall x, In x l -> p x = false.
Proof.
  intros A p l. induction l as [|y l IH]; cbn; intros H x [].
  - subst. destruct (p x); [discriminate|reflexivity].
  - destruct (p y); [discriminate|]. destruct (find_ix p l); [discriminate|]. auto.
Qed.
Lemma sector_eqb_ok : forall x y, sector_eqb x y = true <-> x = y.
Proof.
  intros [a b] [c d]. unfold sector_eqb. cbn. rewrite Bool.andb_true_iff, !Nat.eqb_eq. split; [intros [-> ->]; reflexivity|intros [= -> ->]; auto].
Qed.
Lemma look_up_none : forall s b k, look_up_sector s b k = None <-> ~ In (b, k) s.
Proof.
  intros s b k. unfold look_up_sector. split.
  - intros H Hin. pose proof (find_ix_none _ _ _ H _ Hin) as E. assert (T : sector_eqb (b, k) (b, k) = true) by (apply sector_eqb_ok; reflexivity). congruence.
  - intros H. destruct (find_ix (sector_eqb (b, k)) s) as [i|] eqn:E; [|reflexivity]. apply find_ix_some in E. destruct E as (x & Hx & Ex).
    apply sector_eqb_ok in Ex. subst x. elim H. eapply nth_error_In. exact Hx.
Qed.
Lemma look_up_some : forall s b k i, look_up_sector s b k = Some i -> nth_error s i = Some (b, k).
Proof. intros s b k i H. apply find_ix_some in H. destruct H as (x & Hx & Ex). apply sector_eqb_ok in Ex. subst x. exact Hx. Qed.
Lemma llabel_eqb_ok : forall a b, llabel_eqb a b = true <-> a = b.
Proof.
  intros [s l j] [s' l' j']. unfold llabel_eqb. cbn. rewrite !Bool.andb_true_iff, !Z.eqb_eq. split.
  - intros [[H ->] ->]. destruct s, s'; try discriminate; reflexivity.
  - intros [= -> -> ->]. destruct s'; auto.
Qed.
Lemma look_up_subspace_some : forall s l i, look_up_subspace s l = Some i -> (i < length s)%nat /\ label_of s i = Some l.
Proof.
  intros s l i H. apply find_ix_some in H. destruct H as (x & Hx & Ex). apply llabel_eqb_ok in Ex. unfold label_of. rewrite Hx. cbn. split; [|congruence].
  apply nth_error_Some. congruence.
Qed.
Lemma look_up_subspace_none : forall s l, look_up_subspace s l = None -> forall i, label_of s i <> Some l.
Proof.
  intros s l H i E. unfold label_of in E. destruct (nth_error s i) as [x|] eqn:Hx; [|discriminate]. cbn in E. injection E as E.
  pose proof (find_ix_none _ _ _ H x (nth_error_In _ _ Hx)) as F. cbn in F. rewrite E in F.
  assert (T : llabel_eqb l l = true) by (apply llabel_eqb_ok; reflexivity). congruence.
Qed.

(** ** entries *)
Lemma entry_found : forall s m I i J j q b, NoDup s -> nth_error s q = Some (I, J) -> nth_error m q = Some b -> entry s m I i J j = at_ b i j.
Proof.
  induction s as [|[I' J'] s IH]; intros m I i J j q b Hn Hs Hm; [destruct q; discriminate|].
  inversion Hn as [|? ? Hnin Hn']; subst. destruct m as [|b' m]; [destruct q; discriminate|]. destruct q as [|q]; cbn in Hs, Hm |- *.
  - injection Hs as -> ->. injection Hm as ->. destruct (Nat.eq_dec I I); [|congruence]. destruct (Nat.eq_dec J J); [reflexivity|congruence].
  - destruct (Nat.eq_dec I' I) as [->|]; [destruct (Nat.eq_dec J' J) as [->|]|]; try (eapply IH; eassumption).
    elim Hnin. eapply nth_error_In. exact Hs.
Qed.
Lemma entry_absent : forall s m I i J j, ~ In (I, J) s -> entry s m I i J j = 0.
Proof.
  induction s as [|[I' J'] s IH]; intros m I i J j H; cbn; [reflexivity|]. destruct m as [|b m]; [reflexivity|].
  destruct (Nat.eq_dec I' I) as [->|]; [destruct (Nat.eq_dec J' J) as [->|]|]; try (apply IH; intros Hin; apply H; right; exact Hin).
  elim H. left. reflexivity.
Qed.
Lemma op_block : forall bra ket s m I J, op_ok bra ket s m -> In (I, J) s -> exists q b, nth_error s q = Some (I, J) /\ nth_error m q = Some b
  /\ look_up_sector s I J <> None /\ (I < length bra)%nat /\ (J < length ket)%nat /\ rows b = sub_dim bra I /\ cols b = sub_dim ket J.
Proof.
  intros bra ket s m I J [Hn Hf] Hin. destruct (In_nth_error _ _ Hin) as [q Hq]. exists q.
  assert (exists b, nth_error m q = Some b /\ (I < length bra)%nat /\ (J < length ket)%nat /\ rows b = sub_dim bra I /\ cols b = sub_dim ket J) as (b & Hb & H).
  { clear Hn Hin. revert q Hq. induction Hf as [|x b s m Hx Hf IH]; intros [|q] Hq; try discriminate.
    - cbn in Hq. injection Hq as ->. exists b. split; [reflexivity|exact Hx].
    - apply IH. exact Hq. }
  exists b. split; [exact Hq|]. split; [exact Hb|]. split; [|exact H]. intros E. apply look_up_none in E. contradiction.
Qed.
Lemma op_look_up : forall bra ket s m I J q, op_ok bra ket s m -> look_up_sector s I J = Some q ->
  exists b, nth_error m q = Some b /\ rows b = sub_dim bra I /\ cols b = sub_dim ket J /\ (forall i j, entry s m I i J j = at_ b i j)
  /\ (I < length bra)%nat /\ (J < length ket)%nat.
Proof.
  intros bra ket s m I J q H Hq. pose proof (look_up_some _ _ _ _ Hq) as Hs. pose proof (nth_error_In _ _ Hs) as Hin.
  destruct (op_block _ _ _ _ _ _ H Hin) as (q' & b & Hs' & Hb & _ & D). destruct H as [Hn _].
  assert (q' = q). { apply (proj1 (NoDup_nth_error s) Hn); [apply nth_error_Some; congruence|congruence]. } subst q'.
  exists b. split; [exact Hb|]. destruct D as (D1 & D2 & D3 & D4). split; [exact D3|]. split; [exact D4|]. split; [|auto]. intros i j. eapply entry_found; eassumption.
Qed.

Lemma map_blocks_ok : forall A B (f : A -> outcome B) l, (forall x, In x l -> exists m, f x = Ok m) ->
  exists bs, map_blocks f l = Ok bs /\ length bs = length l /\ forall i x, nth_error l i = Some x -> exists m, nth_error bs i = Some m /\ f x = Ok m.
Proof.
  intros A B f l. induction l as [|x l IH]; intros H; cbn.
  - exists []. split; [reflexivity|]. split; [reflexivity|]. intros [|i] x Hx; discriminate.
  - destruct (H x (or_introl eq_refl)) as [m Em]. destruct IH as (bs & E & L & N); [intros; apply H; right; assumption|].
    rewrite Em, E. cbn. exists (m :: bs). split; [reflexivity|]. split; [cbn; congruence|]. intros [|i] y Hy; cbn in *.
    + injection Hy as <-. exists m. auto.
    + apply N. exact Hy.
Qed.
Lemma map_blocks_inv : forall A B (f : A -> outcome B) l bs, map_blocks f l = Ok bs ->
  length bs = length l /\ forall i x, nth_error l i = Some x -> exists m, nth_error bs i = Some m /\ f x = Ok m.
Proof.
  intros A B f l. induction l as [|x l IH]; intros bs H; cbn in H.
  - injection H as <-. split; [reflexivity|]. intros [|i] x Hx; discriminate.
  - destruct (f x) as [m| | |] eqn:Ef; try discriminate. cbn in H. destruct (map_blocks f l) as [r| | |] eqn:El; try discriminate.
    cbn in H. injection H as <-. destruct (IH r eq_refl) as [L N]. split; [cbn; congruence|]. intros [|i] y Hy; cbn in *.
    + injection Hy as <-. exists m. auto.
    + apply N. exact Hy.
Qed.
Lemma blocks_entry : forall s (bs : blocks R) (d1 d2 : nat -> nat) (F : nat -> nat -> nat -> nat -> R) bra ket, NoDup s ->
  (forall x, In x s -> (fst x < length bra)%nat /\ (snd x < length ket)%nat) ->
  length bs = length s ->
  (forall q I K, nth_error s q = Some (I, K) -> exists m, nth_error bs q = Some m /\ rows m = sub_dim bra I /\ cols m = sub_dim ket K
     /\ forall i k, (i < sub_dim bra I)%nat -> (k < sub_dim ket K)%nat -> at_ m i k = F I i K k) ->
  op_ok bra ket s bs /\ forall I i K k, In (I, K) s -> (i < sub_dim bra I)%nat -> (k < sub_dim ket K)%nat -> entry s bs I i K k = F I i K k.
Proof.
  intros s bs d1 d2 F bra ket Hn Hr Hlen H. split.
  - split; [exact Hn|]. clear Hn. revert bs Hlen H. induction s as [|[I K] s IH]; intros [|m bs] Hlen H; try discriminate; constructor.
    + destruct (H 0%nat I K eq_refl) as (m' & E & R & C & _). cbn in E. injection E as <-. cbn.
      destruct (Hr (I, K) (or_introl eq_refl)) as [H1 H2]. cbn in H1, H2. auto.
    + apply IH; [intros x Hx; apply Hr; right; exact Hx|cbn in Hlen; congruence|]. intros q I' K' Hq. apply (H (S q) I' K'). exact Hq.
  - intros I i K k Hin Hi Hk. destruct (In_nth_error _ _ Hin) as [q Hq]. destruct (H q I K Hq) as (m & Em & _ & _ & A).
    rewrite (entry_found s bs I i K k q m Hn Hq Em). apply A; assumption.
Qed.

(** ** composition *)
Lemma compose_loop : forall bra inner ket sa ma sb mb I K l m0, op_ok bra inner sa ma -> op_ok inner ket sb mb ->
  rows m0 = sub_dim bra I -> cols m0 = sub_dim ket K ->
  exists r, for_each l (fun q m =>
    match look_up_sector sa I q, look_up_sector sb q K with
    | Some ia, Some ib => a <- get (nth_error ma ia) ;; b <- get (nth_error mb ib) ;; p <- mmul a b ;; madd_to m p
    | _, _ => Ok m end) m0 = Ok r /\ rows r = sub_dim bra I /\ cols r = sub_dim ket K
  /\ forall i k, at_ r i k = at_ m0 i k + lsum l (fun J => rsum (sub_dim inner J) (fun j => entry sa ma I i J j * entry sb mb J j K k)).
Proof.
  intros bra inner ket sa ma sb mb I K l. induction l as [|J l IH]; intros m0 Ha Hb Hr Hc; cbn [for_each lsum].
  - exists m0. split; [reflexivity|]. split; [exact Hr|]. split; [exact Hc|]. intros. ring.
  - destruct (look_up_sector sa I J) as [ia|] eqn:Ea.
    2:{ cbn [bind]. destruct (IH m0 Ha Hb Hr Hc) as (r & E & R & C & A). exists r. split; [exact E|]. split; [exact R|]. split; [exact C|].
        intros i k. rewrite A. apply look_up_none in Ea. rewrite (rsum_0 (sub_dim inner J)); [ring|]. intros j _. rewrite (entry_absent sa) by exact Ea. ring. }
    destruct (look_up_sector sb J K) as [ib|] eqn:Eb.
    2:{ cbn [bind]. destruct (IH m0 Ha Hb Hr Hc) as (r & E & R & C & A). exists r. split; [exact E|]. split; [exact R|]. split; [exact C|].
        intros i k. rewrite A. apply look_up_none in Eb. rewrite (rsum_0 (sub_dim inner J)); [ring|]. intros j _. rewrite (entry_absent sb) by exact Eb. ring. }
    destruct (op_look_up _ _ _ _ _ _ _ Ha Ea) as (ba & Eba & Ra & Ca & Ena & _ & _). destruct (op_look_up _ _ _ _ _ _ _ Hb Eb) as (bb & Ebb & Rb & Cb & Enb & _ & _).
    rewrite Eba, Ebb. cbn [get bind]. unfold mmul. rewrite Ca, Rb, Nat.eqb_refl. cbn [cassert bind]. unfold madd_to. cbn [rows cols at_].
    rewrite Hr, Hc, Ra, Cb, !Nat.eqb_refl. cbn [andb cassert bind].
    match goal with |- context [for_each l _ ?m1] => destruct (IH m1 Ha Hb) as (r & E & R & C & A); [reflexivity|reflexivity|] end.
    exists r. split; [exact E|]. split; [exact R|]. split; [exact C|]. intros i k. rewrite A. cbn [at_].
    rewrite (rsum_ext (sub_dim inner J) (fun j => entry sa ma I i J j * entry sb mb J j K k) (fun j => at_ ba i j * at_ bb j k)).
    + ring.
    + intros j _. rewrite Ena, Enb. reflexivity.
Qed.
Lemma lspace_eqb_refl : forall s, lspace_eqb s s = true.
Proof. intros s. unfold lspace_eqb. destruct (list_eq_dec _ s s); [reflexivity|congruence]. Qed.
Lemma lspace_eqb_ne : forall s s', s <> s' -> lspace_eqb s s' = false.
Proof. intros s s' H. unfold lspace_eqb. destruct (list_eq_dec _ s s'); [contradiction|reflexivity]. Qed.

Theorem compose_product : forall bra inner ket sa ma sb mb s, op_ok bra inner sa ma -> op_ok inner ket sb mb -> NoDup s ->
  (forall x, In x s -> (fst x < length bra)%nat /\ (snd x < length ket)%nat) ->
  exists r, compose bra inner inner ket sa ma sb mb s = Ok r /\ op_ok bra ket s r
  /\ forall I i K k, In (I, K) s -> (i < sub_dim bra I)%nat -> (k < sub_dim ket K)%nat ->
     entry s r I i K k = ssum inner (fun J j => entry sa ma I i J j * entry sb mb J j K k).
Proof.
  intros bra inner ket sa ma sb mb s Ha Hb Hn Hr. unfold compose. rewrite lspace_eqb_refl. cbn [cassert bind].
  assert (B : forall x, exists m, compose_block inner sa ma sb mb x (mzero 0 (sub_dim bra (fst x)) (sub_dim ket (snd x))) = Ok m
    /\ rows m = sub_dim bra (fst x) /\ cols m = sub_dim ket (snd x)
    /\ forall i k, at_ m i k = ssum inner (fun J j => entry sa ma (fst x) i J j * entry sb mb J j (snd x) k)).
  { intros x. unfold compose_block.
    destruct (compose_loop bra inner ket sa ma sb mb (fst x) (snd x) (seq 0 (length inner)) (mzero 0 (sub_dim bra (fst x)) (sub_dim ket (snd x))) Ha Hb eq_refl eq_refl)
      as (m & E & R & C & A). exists m. split; [exact E|]. split; [exact R|]. split; [exact C|]. intros i k. rewrite A. cbn [mzero at_]. unfold ssum, rsum. ring. }
  destruct (map_blocks_ok _ _ (fun x => compose_block inner sa ma sb mb x (mzero 0 (sub_dim bra (fst x)) (sub_dim ket (snd x)))) s) as (bs & E & L & N).
  { intros x _. destruct (B x) as (m & Em & _). exists m. exact Em. }
  exists bs. split; [exact E|].
  apply (blocks_entry s bs (sub_dim bra) (sub_dim ket) (fun I i K k => ssum inner (fun J j => entry sa ma I i J j * entry sb mb J j K k)) bra ket Hn Hr L).
  intros q I K Hq. destruct (N q (I, K) Hq) as (m & Em & Ef). destruct (B (I, K)) as (m' & Em' & R & C & A). rewrite Em' in Ef. injection Ef as <-.
  exists m'. split; [exact Em|]. split; [exact R|]. split; [exact C|]. intros i k _ _. apply A.
Qed.
Theorem compose_assert : forall bra inner inner' ket sa ma sb mb s, inner <> inner' -> compose bra inner inner' ket sa ma sb mb s = AssertFail.
Proof. intros. unfold compose. rewrite lspace_eqb_ne by assumption. reflexivity. Qed.

Lemma ssum_ext : forall sp f g, (forall J j, state sp J j -> f J j = g J j) -> ssum sp f = ssum sp g.
Proof. intros sp f g H. apply rsum_ext. intros J HJ. apply rsum_ext. intros j Hj. apply H. split; assumption. Qed.
Lemma ssum_scale : forall sp c f, ssum sp (fun J j => c * f J j) = c * ssum sp f.
Proof. intros. unfold ssum. rewrite <- rsum_scale. apply rsum_ext. intros. apply rsum_scale. Qed.
Lemma ssum_scale_r : forall sp c f, ssum sp (fun J j => f J j * c) = ssum sp f * c.
Proof. intros. unfold ssum. rewrite <- rsum_scale_r. apply rsum_ext. intros. apply rsum_scale_r. Qed.
Lemma ssum_0 : forall sp f, (forall J j, state sp J j -> f J j = 0) -> ssum sp f = 0.
Proof. intros sp f H. apply rsum_0. intros J HJ. apply rsum_0. intros j Hj. apply H. split; assumption. Qed.
Lemma ssum_swap : forall s1 s2 f, ssum s1 (fun I i => ssum s2 (fun J j => f I i J j)) = ssum s2 (fun J j => ssum s1 (fun I i => f I i J j)).
Proof.
  intros s1 s2 f. unfold ssum.
  transitivity (rsum (length s1) (fun I => rsum (length s2) (fun J => rsum (sub_dim s1 I) (fun i => rsum (sub_dim s2 J) (fun j => f I i J j))))).
  - apply rsum_ext. intros I _. rewrite rsum_swap. reflexivity.
  - rewrite rsum_swap. apply rsum_ext. intros J _.
    rewrite (rsum_ext (length s1) _ (fun I => rsum (sub_dim s2 J) (fun j => rsum (sub_dim s1 I) (fun i => f I i J j)))) by (intros; apply rsum_swap).
    apply rsum_swap.
Qed.
Lemma ssum_subspace : forall sp A f, (A < length sp)%nat -> (forall J j, state sp J j -> J <> A -> f J j = 0) -> ssum sp f = rsum (sub_dim sp A) (f A).
Proof.
  intros sp A f HA H. unfold ssum. rewrite (rsum_one (length sp) A); [reflexivity|exact HA|]. intros J HJ Hne. apply rsum_0. intros j Hj. apply H; [split; assumption|exact Hne].
Qed.
Lemma ssum_one : forall sp A a f, state sp A a -> (forall J j, state sp J j -> (J, j) <> (A, a) -> f J j = 0) -> ssum sp f = f A a.
Proof.
  intros sp A a f [HA Ha] H. rewrite (ssum_subspace sp A); [|exact HA|intros J j Hs Hne; apply H; [exact Hs|congruence]].
  apply rsum_one; [exact Ha|]. intros i Hi Hne. apply H; [split; assumption|congruence].
Qed.

(** entries of a product outside the listed sectors *)
Lemma entry_product : forall bra inner ket sa ma sb mb s r, op_ok bra inner sa ma -> op_ok inner ket sb mb -> op_ok bra ket s r -> product_sectors sa sb s ->
  (forall I i K k, In (I, K) s -> (i < sub_dim bra I)%nat -> (k < sub_dim ket K)%nat ->
     entry s r I i K k = ssum inner (fun J j => entry sa ma I i J j * entry sb mb J j K k)) ->
  forall I i K k, (i < sub_dim bra I)%nat -> (k < sub_dim ket K)%nat -> entry s r I i K k = ssum inner (fun J j => entry sa ma I i J j * entry sb mb J j K k).
Proof.
  intros bra inner ket sa ma sb mb s r Ha Hb Hs Hp H I i K k Hi Hk.
  destruct (in_dec (fun x y : nat * nat => ltac:(repeat decide equality)) (I, K) s) as [Hin|Hnin]; [apply H; assumption|].
  rewrite entry_absent by exact Hnin. symmetry. apply ssum_0. intros J j _.
  destruct (in_dec (fun x y : nat * nat => ltac:(repeat decide equality)) (I, J) sa) as [H1|H1]; [|rewrite (entry_absent sa) by exact H1; ring].
  destruct (in_dec (fun x y : nat * nat => ltac:(repeat decide equality)) (J, K) sb) as [H2|H2]; [|rewrite (entry_absent sb) by exact H2; ring].
  elim Hnin. eapply Hp; eassumption.
Qed.
Theorem compose_assoc : forall s1 s2 s3 s4 sa ma sb mb sc mc sab sbc s mab mbc r r',
  op_ok s1 s2 sa ma -> op_ok s2 s3 sb mb -> op_ok s3 s4 sc mc -> NoDup sab -> NoDup sbc -> NoDup s ->
  (forall x, In x sab -> (fst x < length s1)%nat /\ (snd x < length s3)%nat) -> (forall x, In x sbc -> (fst x < length s2)%nat /\ (snd x < length s4)%nat) ->
  (forall x, In x s -> (fst x < length s1)%nat /\ (snd x < length s4)%nat) ->
  product_sectors sa sb sab -> product_sectors sb sc sbc ->
  compose s1 s2 s2 s3 sa ma sb mb sab = Ok mab -> compose s2 s3 s3 s4 sb mb sc mc sbc = Ok mbc ->
  compose s1 s3 s3 s4 sab mab sc mc s = Ok r -> compose s1 s2 s2 s4 sa ma sbc mbc s = Ok r' ->
  op_ok s1 s4 s r /\ op_ok s1 s4 s r' /\
  forall I i K k, In (I, K) s -> (i < sub_dim s1 I)%nat -> (k < sub_dim s4 K)%nat -> entry s r I i K k = entry s r' I i K k.
Proof.
  intros s1 s2 s3 s4 sa ma sb mb sc mc sab sbc s mab mbc r r' Ha Hb Hc N1 N2 N3 R1 R2 R3 P1 P2 E1 E2 E3 E4.
  destruct (compose_product s1 s2 s3 sa ma sb mb sab Ha Hb N1 R1) as (mab' & E1' & O1 & X1). rewrite E1' in E1. injection E1 as ->.
  destruct (compose_product s2 s3 s4 sb mb sc mc sbc Hb Hc N2 R2) as (mbc' & E2' & O2 & X2). rewrite E2' in E2. injection E2 as ->.
  destruct (compose_product s1 s3 s4 sab mab sc mc s O1 Hc N3 R3) as (r1 & E3' & O3 & X3). rewrite E3' in E3. injection E3 as ->.
  destruct (compose_product s1 s2 s4 sa ma sbc mbc s Ha O2 N3 R3) as (r2 & E4' & O4 & X4). rewrite E4' in E4. injection E4 as ->.
  split; [exact O3|]. split; [exact O4|]. intros I i K k Hin Hi Hk. rewrite X3, X4 by assumption.
  transitivity (ssum s3 (fun L l => ssum s2 (fun J j => entry sa ma I i J j * entry sb mb J j L l * entry sc mc L l K k))).
  - apply ssum_ext. intros L l [HL Hl]. rewrite (entry_product s1 s2 s3 sa ma sb mb sab mab Ha Hb O1 P1 X1) by assumption. rewrite <- ssum_scale_r. reflexivity.
  - rewrite ssum_swap. apply ssum_ext. intros J j [HJ Hj]. rewrite (entry_product s2 s3 s4 sb mb sc mc sbc mbc Hb Hc O2 P2 X2) by assumption.
    rewrite <- ssum_scale. apply ssum_ext. intros. ring.
Qed.
