(** Lemmas for C82-C87. *)
From Coq Require Import String List ZArith Reals Bool Lra Lia.
From Verif Require Import Base BaseLemmas RMat H2Model MapModel OscModel OscSpec BlockModel BlockSpec BlockProof BlockFinal ObioModel ObioProof ObioFinal
  MixModel MixFinal ObmModel ObmSpec.
Import ListNotations.
Open Scope R_scope.
Open Scope outcome_scope.

(** ** sectors *)
Lemma sectors_in : forall bra ket J0 g0 Tz0 I K, In (I, K) (sectors_of bra ket (J0, g0, Tz0)) <->
  exists x y, nth_error bra I = Some x /\ nth_error ket K = Some y /\ selection J0 g0 Tz0 (fst x) (fst y) = true.
Proof.
  intros bra ket J0 g0 Tz0 I K. unfold sectors_of, mk_lsectors. rewrite filter_In, in_prod_iff, !in_seq. cbn [fst snd]. split.
  - intros [_ H]. destruct (nth_error bra I) as [x|]; [|discriminate]. destruct (nth_error ket K) as [y|]; [|discriminate]. eauto.
  - intros (x & y & Hx & Hy & H). rewrite Hx, Hy. split; [|exact H].
    assert (I < length bra)%nat by (apply nth_error_Some; congruence). assert (K < length ket)%nat by (apply nth_error_Some; congruence). lia.
Qed.
Lemma sectors_nodup : forall bra ket q, NoDup (sectors_of bra ket q).
Proof. intros bra ket [[J0 g0] Tz0]. apply mk_lsectors_nodup. Qed.
Lemma sectors_range : forall bra ket q x, In x (sectors_of bra ket q) -> (fst x < length bra)%nat /\ (snd x < length ket)%nat.
Proof. intros bra ket [[J0 g0] Tz0] [I K] H. apply mk_lsectors_in in H. exact H. Qed.

(** ** loops over sectors *)
Lemma op_nth : forall bra ket s m q I K, op_ok bra ket s m -> nth_error s q = Some (I, K) ->
  exists b, nth_error m q = Some b /\ rows b = sub_dim bra I /\ cols b = sub_dim ket K /\ (I < length bra)%nat /\ (K < length ket)%nat.
Proof.
  intros bra ket s m q I K [_ F] Hq. destruct (Forall2_nth_l _ _ _ _ _ _ _ F Hq) as (b & Hb & H1 & H2 & H3 & H4). exists b. cbn in *. auto.
Qed.
Lemma update_loop : forall (sp : lspace) (f : llabel -> llabel -> outcome R) (c : nat -> nat -> R) (s : lsectors), (forall I K x y, In (I, K) s -> nth_error sp I = Some x -> nth_error sp K = Some y -> f (fst x) (fst y) = Ok (c I K)) ->
  (forall x, In x s -> (fst x < length sp)%nat /\ (snd x < length sp)%nat) ->
  forall l ms, NoDup l -> (forall i, In i l -> (i < length s)%nat) -> length ms = length s ->
  exists r, for_each l (fun i ms =>
    x <- get (nth_error s i) ;; b <- get (nth_error sp (fst x)) ;; k <- get (nth_error sp (snd x)) ;;
    m <- get (nth_error ms i) ;; c <- f (fst b) (fst k) ;; store ms i (block_scale c m)) ms = Ok r /\ length r = length s
  /\ forall i, (In i l -> forall I K m, nth_error s i = Some (I, K) -> nth_error ms i = Some m -> nth_error r i = Some (block_scale (c I K) m))
     /\ (~ In i l -> nth_error r i = nth_error ms i).
Proof.
  intros sp f c s Hf Hr l. induction l as [|i l IH]; intros ms Hn Hl Hlen; cbn [for_each].
  - exists ms. split; [reflexivity|]. split; [exact Hlen|]. intros i. split; [intros []|reflexivity].
  - inversion Hn as [|? ? Hni Hn']; subst. assert (Hi := Hl i (or_introl eq_refl)).
    destruct (nth_error s i) as [[I K]|] eqn:Es; [|apply nth_error_None in Es; lia].
    assert (Hin := nth_error_In _ _ Es). destruct (Hr _ Hin) as [HI HK]. cbn [fst snd] in HI, HK. cbn [get bind fst snd].
    destruct (nth_error sp I) as [x|] eqn:Ex; [|apply nth_error_None in Ex; lia]. destruct (nth_error sp K) as [y|] eqn:Ey; [|apply nth_error_None in Ey; lia].
    cbn [get bind]. destruct (nth_error ms i) as [m|] eqn:Em; [|apply nth_error_None in Em; lia]. cbn [get bind].
    rewrite (Hf I K x y Hin Ex Ey). cbn [bind].
    destruct (store_ok _ ms i (block_scale (c I K) m)) as (ms1 & E1 & L1 & N1 & O1); [lia|]. rewrite E1. cbn [bind].
    destruct (IH ms1 Hn') as (r & E & L & A); [intros j Hj; apply Hl; right; exact Hj|congruence|].
    exists r. split; [exact E|]. split; [exact L|]. intros j. destruct (A j) as [A1 A2]. split.
    + intros [<-|Hj] I' K' m' Hs' Hm'.
      * rewrite (A2 Hni), N1. rewrite Es in Hs'. rewrite Em in Hm'. injection Hs' as <- <-. injection Hm' as <-. reflexivity.
      * apply A1; [exact Hj|exact Hs'|]. rewrite O1 by (intros ->; contradiction). exact Hm'.
    + intros Hj. rewrite A2 by (intros H; apply Hj; right; exact H). apply O1. intros ->. apply Hj. left. reflexivity.
Qed.
Lemma update_ok : forall (sp : lspace) (f : llabel -> llabel -> outcome R) (c : nat -> nat -> R) s m, op_ok sp sp s m ->
  (forall I K x y, In (I, K) s -> nth_error sp I = Some x -> nth_error sp K = Some y -> f (fst x) (fst y) = Ok (c I K)) ->
  exists r, update_blocks sp f s m = Ok r /\ op_ok sp sp s r /\ forall I i K k, entry s r I i K k = entry s m I i K k * c I K.
Proof.
  intros sp f c s m H Hf. assert (Hlen := Forall2_len' _ _ _ _ _ (proj2 H)).
  destruct (update_loop sp f c s Hf) with (l := seq 0 (length s)) (ms := m) as (r & E & L & A).
  - intros [I K] Hin. destruct (op_block _ _ _ _ _ _ H Hin) as (q & b & Hq & _). destruct (op_nth _ _ _ _ _ _ _ H Hq) as (b' & _ & _ & _ & H1 & H2). auto.
  - apply seq_NoDup.
  - intros i Hi. apply in_seq in Hi. lia.
  - unfold lsectors in *. lia.
  - exists r. split; [exact E|].
    assert (B : forall q I K, nth_error s q = Some (I, K) -> exists b, nth_error m q = Some b /\ nth_error r q = Some (block_scale (c I K) b)).
    { intros q I K Hq. destruct (op_nth _ _ _ _ _ _ _ H Hq) as (b & Hb & _). exists b. split; [exact Hb|]. apply (proj1 (A q)); try assumption.
      apply in_seq. assert (q < length s)%nat by (apply nth_error_Some; congruence). lia. }
    split.
    + split; [apply H|]. apply Forall2_of_nth; [unfold lsectors in *; lia|]. intros q [I K] b Hq Hb.
      destruct (B q I K Hq) as (b0 & Hb0 & Hr0). rewrite Hb in Hr0. injection Hr0 as ->.
      destruct (op_nth _ _ _ _ _ _ _ H Hq) as (b1 & Hb1 & R1 & C1 & H1 & H2). rewrite Hb0 in Hb1. injection Hb1 as <-. cbn. auto.
    + intros I i K k. destruct (in_dec (fun x y : nat * nat => ltac:(decide equality; apply Nat.eq_dec)) (I, K) s) as [Hin|Hin].
      * destruct (In_nth_error _ _ Hin) as [q Hq]. destruct (B q I K Hq) as (b & Hb & Hr).
        rewrite (entry_found s r I i K k q _ (proj1 H) Hq Hr), (entry_found s m I i K k q _ (proj1 H) Hq Hb). reflexivity.
      * rewrite !entry_absent by exact Hin. ring.
Qed.
(** blocks computed for each sector *)
Lemma sector_blocks_ok : forall sp (f : llabel * list Z -> llabel * list Z -> outcome (mat R)) (F : nat -> nat -> nat -> nat -> R) s, NoDup s ->
  (forall x, In x s -> (fst x < length sp)%nat /\ (snd x < length sp)%nat) ->
  (forall I K x y, In (I, K) s -> nth_error sp I = Some x -> nth_error sp K = Some y -> exists m, f x y = Ok m /\ rows m = length (snd x) /\ cols m = length (snd y)
     /\ forall i k, (i < length (snd x))%nat -> (k < length (snd y))%nat -> at_ m i k = F I i K k) ->
  exists r, sector_blocks sp f s = Ok r /\ op_ok sp sp s r
  /\ forall I i K k, In (I, K) s -> (i < sub_dim sp I)%nat -> (k < sub_dim sp K)%nat -> entry s r I i K k = F I i K k.
Proof.
  intros sp f F s Hn Hr Hf. unfold sector_blocks.
  assert (G : forall I K, In (I, K) s -> exists m, (b <- get (nth_error sp I) ;; k <- get (nth_error sp K) ;; f b k) = Ok m /\ rows m = sub_dim sp I /\ cols m = sub_dim sp K
     /\ forall i k, (i < sub_dim sp I)%nat -> (k < sub_dim sp K)%nat -> at_ m i k = F I i K k).
  { intros I K Hin. destruct (Hr _ Hin) as [HI HK]. cbn [fst snd] in HI, HK. unfold sub_dim.
    destruct (nth_error sp I) as [[a la]|] eqn:Ex; [|apply nth_error_None in Ex; lia]. destruct (nth_error sp K) as [[b lb]|] eqn:Ey; [|apply nth_error_None in Ey; lia].
    cbn [get bind]. exact (Hf I K _ _ Hin Ex Ey). }
  match goal with |- exists r, map_blocks ?g s = _ /\ _ => destruct (map_blocks_ok _ _ g s) as (r & E & L & N) end.
  { intros [I K] Hin. cbn [fst snd]. destruct (G I K Hin) as (m & Em & _). eauto. }
  exists r. split; [exact E|]. apply (blocks_entry s r (fun _ => O) (fun _ => O) F sp sp Hn Hr L).
  intros q I K Hq. destruct (N q _ Hq) as (m & Hm & Em). cbn [fst snd] in Em. destruct (G I K (nth_error_In _ _ Hq)) as (m' & Em' & R' & C' & A').
  rewrite Em in Em'. injection Em' as <-. exists m. auto.
Qed.

(** ** tensor products *)
Section Tensor.
Variable racah : Z -> Z -> Z -> Z -> Z -> Z -> R.
Lemma tensor_loop : forall sp Ja Jb J sa ma sb mb I K l m0, op_ok sp sp sa ma -> op_ok sp sp sb mb ->
  (forall p, In p l -> (p < length sp)%nat) -> rows m0 = sub_dim sp I -> cols m0 = sub_dim sp K ->
  forall b k, ll_2j (fst b) = two_j sp I -> ll_2j (fst k) = two_j sp K ->
  exists r, for_each l (fun p m =>
    match look_up_sector sa I p, look_up_sector sb p K with
    | Some ia, Some ib =>
        c <- get (nth_error sp p) ;;
        u <- get (nth_error ma ia) ;; v <- get (nth_error mb ib) ;;
        w <- mmul (block_scale (racah (ll_2j (@fst llabel (list Z) b)) (ll_2j (@fst llabel (list Z) k)) (ll_2j (fst c)) Ja Jb J) u) v ;;
        madd_to m w
    | _, _ => Ok m
    end) m0 = Ok r /\ rows r = sub_dim sp I /\ cols r = sub_dim sp K
  /\ forall i j, at_ r i j = at_ m0 i j
       + lsum l (fun P => rsum (sub_dim sp P) (fun p => racah (two_j sp I) (two_j sp K) (two_j sp P) Ja Jb J * entry sa ma I i P p * entry sb mb P p K j)).
Proof.
  intros sp Ja Jb J sa ma sb mb I K l. induction l as [|P l IH]; intros m0 Ha Hb Hl Hr Hc b k Ejb Ejk; cbn [for_each lsum].
  - exists m0. split; [reflexivity|]. split; [exact Hr|]. split; [exact Hc|]. intros. ring.
  - assert (Hl' : forall p, In p l -> (p < length sp)%nat) by (intros p Hp; apply Hl; right; exact Hp).
    destruct (look_up_sector sa I P) as [ia|] eqn:Ea.
    2:{ cbn [bind]. destruct (IH m0 Ha Hb Hl' Hr Hc b k Ejb Ejk) as (r & E & R & C & A). exists r. split; [exact E|]. split; [exact R|]. split; [exact C|].
        intros i j. rewrite A. apply look_up_none in Ea. rewrite (rsum_0 (sub_dim sp P)); [ring|]. intros p _. rewrite (entry_absent sa) by exact Ea. ring. }
    destruct (look_up_sector sb P K) as [ib|] eqn:Eb.
    2:{ cbn [bind]. destruct (IH m0 Ha Hb Hl' Hr Hc b k Ejb Ejk) as (r & E & R & C & A). exists r. split; [exact E|]. split; [exact R|]. split; [exact C|].
        intros i j. rewrite A. apply look_up_none in Eb. rewrite (rsum_0 (sub_dim sp P)); [ring|]. intros p _. rewrite (entry_absent sb) by exact Eb. ring. }
    destruct (op_look_up _ _ _ _ _ _ _ Ha Ea) as (ba & Eba & Ra & Ca & Ena & _ & _). destruct (op_look_up _ _ _ _ _ _ _ Hb Eb) as (bb & Ebb & Rb & Cb & Enb & _ & _).
    assert (HP := Hl P (or_introl eq_refl)). destruct (nth_error sp P) as [[lc nc]|] eqn:Ec; [|apply nth_error_None in Ec; lia].
    rewrite Eba, Ebb. cbn [get bind]. unfold mmul. cbn [block_scale rows cols at_]. rewrite Ca, Rb, Nat.eqb_refl. cbn [cassert bind]. unfold madd_to. cbn [rows cols at_].
    rewrite Hr, Hc, Ra, Cb, !Nat.eqb_refl. cbn [andb cassert bind].
    match goal with |- context [for_each l _ ?m1] => destruct (IH m1 Ha Hb Hl') with (b := b) (k := k) as (r & E & R & C & A); [reflexivity|reflexivity|exact Ejb|exact Ejk|] end.
    exists r. split; [exact E|]. split; [exact R|]. split; [exact C|]. intros i j. rewrite A. cbn [at_]. rewrite Ejb, Ejk.
    assert (Ej : two_j sp P = ll_2j lc) by (unfold two_j; rewrite Ec; reflexivity). rewrite Ej. cbn [fst].
    rewrite (rsum_ext (sub_dim sp P) (fun p => racah (two_j sp I) (two_j sp K) (ll_2j lc) Ja Jb J * entry sa ma I i P p * entry sb mb P p K j)
      (fun p => at_ ba i p * racah (two_j sp I) (two_j sp K) (ll_2j lc) Ja Jb J * at_ bb p j)).
    + ring.
    + intros p _. rewrite Ena, Enb. ring.
Qed.
Lemma product_qn_checks : forall Ja ga Ta Jb gb Tb J g T, product_qn (Ja, ga, Ta) (Jb, gb, Tb) (J, g, T) <->
  triangle_2 Ja Jb J = true /\ (Z.rem (ga + gb + g) 2 =? 0)%Z = true /\ (Ta + Tb =? T)%Z = true.
Proof.
  intros. unfold product_qn, coupled, triangle_2. rewrite andb_true_iff, !Z.leb_le, !Z.eqb_eq.
  assert (H : Z.Even (ga + gb + g) <-> Z.rem (ga + gb + g) 2 = 0%Z).
  { rewrite Z.rem_divide by lia. split; intros [w Hw]; exists w; lia. }
  rewrite H. tauto.
Qed.
Theorem tensor_ok : forall sp qa sa ma qb sb mb q s, op_ok sp sp sa ma -> op_ok sp sp sb mb -> NoDup s ->
  (forall x, In x s -> (fst x < length sp)%nat /\ (snd x < length sp)%nat) -> product_qn qa qb q ->
  exists r, tensor_product racah sp qa sa ma qb sb mb q s = Ok r /\ op_ok sp sp s r
  /\ forall I i K k, In (I, K) s -> (i < sub_dim sp I)%nat -> (k < sub_dim sp K)%nat ->
     entry s r I i K k = ssum sp (fun P p => racah (two_j sp I) (two_j sp K) (two_j sp P) (rank qa) (rank qb) (rank q) * entry sa ma I i P p * entry sb mb P p K k).
Proof.
  intros sp [[Ja ga] Ta] sa ma [[Jb gb] Tb] sb mb [[J g] T] s Ha Hb Hn Hr Hq. apply product_qn_checks in Hq. destruct Hq as (Q1 & Q2 & Q3).
  unfold tensor_product. rewrite Q1, Q2, Q3. cbn [cassert bind rank fst].
  assert (G : forall I K, In (I, K) s -> exists m, tensor_block racah sp Ja Jb J sa ma sb mb (I, K) = Ok m /\ rows m = sub_dim sp I /\ cols m = sub_dim sp K
     /\ forall i k, at_ m i k = ssum sp (fun P p => racah (two_j sp I) (two_j sp K) (two_j sp P) Ja Jb J * entry sa ma I i P p * entry sb mb P p K k)).
  { intros I K Hin. destruct (Hr _ Hin) as [HI HK]. cbn [fst snd] in HI, HK. unfold tensor_block. cbn [fst snd].
    destruct (nth_error sp I) as [x|] eqn:Ex; [|apply nth_error_None in Ex; lia]. destruct (nth_error sp K) as [y|] eqn:Ey; [|apply nth_error_None in Ey; lia]. cbn [get bind].
    destruct (tensor_loop sp Ja Jb J sa ma sb mb I K (seq 0 (length sp)) (mzero 0 (sub_dim sp I) (sub_dim sp K)) Ha Hb) with (b := x) (k := y) as (r & E & R & C & A).
    - intros p Hp. apply in_seq in Hp. lia.
    - reflexivity.
    - reflexivity.
    - unfold two_j. rewrite Ex. reflexivity.
    - unfold two_j. rewrite Ey. reflexivity.
    - exists r. split; [exact E|]. split; [exact R|]. split; [exact C|]. intros i k. rewrite A. cbn [mzero at_]. unfold ssum. unfold rsum at 2. ring. }
  destruct (map_blocks_ok _ _ (tensor_block racah sp Ja Jb J sa ma sb mb) s) as (r & E & L & N).
  { intros [I K] Hin. destruct (G I K Hin) as (m & Em & _). eauto. }
  exists r. split; [exact E|].
  apply (blocks_entry s r (fun _ => O) (fun _ => O)
    (fun I i K k => ssum sp (fun P p => racah (two_j sp I) (two_j sp K) (two_j sp P) Ja Jb J * entry sa ma I i P p * entry sb mb P p K k)) sp sp Hn Hr L).
  intros q I K Hq. destruct (N q _ Hq) as (m & Hm & Em). destruct (G I K (nth_error_In _ _ Hq)) as (m' & Em' & R' & C' & A').
  rewrite Em in Em'. injection Em' as <-. exists m. split; [exact Hm|]. split; [exact R'|]. split; [exact C'|]. intros i k _ _. apply A'.
Qed.
Theorem tensor_refused : forall sp qa sa ma qb sb mb q s, ~ product_qn qa qb q -> tensor_product racah sp qa sa ma qb sb mb q s = AssertFail.
Proof.
  intros sp [[Ja ga] Ta] sa ma [[Jb gb] Tb] sb mb [[J g] T] s H. rewrite product_qn_checks in H. unfold tensor_product.
  destruct (triangle_2 Ja Jb J); [|reflexivity]. destruct (Z.rem (ga + gb + g) 2 =? 0)%Z; [|reflexivity]. destruct (Ta + Tb =? T)%Z; [|reflexivity].
  elim H. auto.
Qed.
(** when the Racah factor vanishes unless j', J0, j can be coupled, no element of the product is lost *)
Theorem tensor_complete : forall sp qa sa ma qb sb mb q, tensor_op sp qa sa ma -> tensor_op sp qb sb mb -> product_qn qa qb q ->
  (forall j' j j'' Ja Jb J, ~ coupled j (2 * J) j' -> racah j' j j'' Ja Jb J = 0) ->
  exists r, tensor_product racah sp qa sa ma qb sb mb q (sectors_of sp sp q) = Ok r /\ tensor_op sp q (sectors_of sp sp q) r
  /\ forall I i K k, state sp I i -> state sp K k ->
     entry (sectors_of sp sp q) r I i K k = ssum sp (fun P p => racah (two_j sp I) (two_j sp K) (two_j sp P) (rank qa) (rank qb) (rank q) * entry sa ma I i P p * entry sb mb P p K k).
Proof.
  intros sp qa sa ma qb sb mb q [Ha Sa] [Hb Sb] Hq Hz.
  destruct (tensor_ok sp qa sa ma qb sb mb q (sectors_of sp sp q) Ha Hb (sectors_nodup _ _ _) (sectors_range _ _ _) Hq) as (r & E & O & A).
  exists r. split; [exact E|]. split; [split; [exact O|reflexivity]|]. intros I i K k [HI Hi] [HK Hk].
  destruct (in_dec (fun x y : nat * nat => ltac:(decide equality; apply Nat.eq_dec)) (I, K) (sectors_of sp sp q)) as [Hin|Hin]; [apply A; assumption|].
  rewrite entry_absent by exact Hin. symmetry. apply ssum_0. intros P p [HP _].
  destruct (in_dec (fun x y : nat * nat => ltac:(decide equality; apply Nat.eq_dec)) (I, P) sa) as [Hpa|Hpa]; [|rewrite (entry_absent sa) by exact Hpa; ring].
  destruct (in_dec (fun x y : nat * nat => ltac:(decide equality; apply Nat.eq_dec)) (P, K) sb) as [Hpb|Hpb]; [|rewrite (entry_absent sb) by exact Hpb; ring].
  rewrite Hz; [ring|]. intros Hc. apply Hin. clear A E O.
  destruct qa as [[Ja ga] Ta], qb as [[Jb gb] Tb], q as [[J g] T]. cbn [rank fst] in Hc. rewrite Sa in Hpa. rewrite Sb in Hpb.
  apply sectors_in in Hpa, Hpb. destruct Hpa as (x & y & Hx & Hy & S1). destruct Hpb as (y' & z & Hy' & Hz' & S2). rewrite Hy in Hy'. injection Hy' as <-.
  apply sectors_in. exists x, z. split; [exact Hx|]. split; [exact Hz'|]. unfold two_j in Hc. rewrite Hx, Hz' in Hc.
  unfold selection in *. rewrite !andb_true_iff in *. destruct S1 as [[_ P1] T1], S2 as [[_ P2] T2]. destruct Hq as (_ & Hg & HT).
  split; [split|].
  - unfold triangle_2, coupled in *. rewrite andb_true_iff, !Z.leb_le. exact Hc.
  - apply Z.even_spec in P1, P2. apply Z.even_spec. destruct P1 as [u Hu], P2 as [v Hv], Hg as [w Hw]. exists (u + v + w - ga - gb - ll_l (fst y))%Z. lia.
  - apply Z.eqb_eq in T1, T2. apply Z.eqb_eq. lia.
Qed.
(** scalar operators: the matrix product *)
Theorem tensor_scalar : forall sp sa ma sb mb s r r', op_ok sp sp sa ma -> op_ok sp sp sb mb -> NoDup s ->
  (forall x, In x s -> (fst x < length sp)%nat /\ (snd x < length sp)%nat) ->
  sa = sectors_of sp sp (0, 0, 0)%Z -> sb = sectors_of sp sp (0, 0, 0)%Z ->
  (forall j, racah j j j 0 0 0 = 1) ->
  tensor_product racah sp (0, 0, 0)%Z sa ma (0, 0, 0)%Z sb mb (0, 0, 0)%Z s = Ok r -> compose sp sp sp sp sa ma sb mb s = Ok r' ->
  forall I i K k, In (I, K) s -> (i < sub_dim sp I)%nat -> (k < sub_dim sp K)%nat -> entry s r I i K k = entry s r' I i K k.
Proof.
  intros sp sa ma sb mb s r r' Ha Hb Hn Hr Sa Sb H1 E E' I i K k Hin Hi Hk.
  destruct (tensor_ok sp (0, 0, 0)%Z sa ma (0, 0, 0)%Z sb mb (0, 0, 0)%Z s Ha Hb Hn Hr) as (r0 & E0 & _ & A0).
  { cbn. unfold coupled. repeat split; try lia. exists 0%Z. reflexivity. }
  rewrite E0 in E. injection E as <-.
  destruct (compose_product sp sp sp sa ma sb mb s Ha Hb Hn Hr) as (r1 & E1 & _ & A1). rewrite E1 in E'. injection E' as <-.
  rewrite A0, A1 by assumption. apply ssum_ext. intros P p [HP _]. cbn [rank fst].
  destruct (in_dec (fun x y : nat * nat => ltac:(decide equality; apply Nat.eq_dec)) (I, P) sa) as [Hpa|Hpa]; [|rewrite (entry_absent sa) by exact Hpa; ring].
  destruct (in_dec (fun x y : nat * nat => ltac:(decide equality; apply Nat.eq_dec)) (P, K) sb) as [Hpb|Hpb]; [|rewrite (entry_absent sb) by exact Hpb; ring].
  rewrite Sa in Hpa. rewrite Sb in Hpb. apply sectors_in in Hpa, Hpb. destruct Hpa as (x & y & Hx & Hy & S1). destruct Hpb as (y' & z & Hy' & Hz' & S2). rewrite Hy in Hy'. injection Hy' as <-.
  unfold selection, triangle_2 in S1, S2. rewrite !andb_true_iff, !Z.leb_le in S1, S2.
  assert (J1 : two_j sp I = two_j sp P) by (unfold two_j; rewrite Hx, Hy; lia).
  assert (J2 : two_j sp K = two_j sp P) by (unfold two_j; rewrite Hz', Hy; lia).
  rewrite J1, J2, H1. ring.
Qed.
End Tensor.
