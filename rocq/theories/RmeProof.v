(** Relative operators: what is stored. *)
From Coq Require Import List ZArith Reals Bool Lia Lra.
From Verif Require Import Base RMat OscModel OscSpec OscFinal BlockModel BlockProof MoshModel JpvModel JpvSpec IsoModel TrfModel TrfSpec TrfProof RmeModel RmeSpec.
Import ListNotations.
Open Scope Z_scope.

Definition block_of (sp : rspace) (f : rsub -> rsub -> outcome (mat num)) (x : nat * nat) : outcome (mat num) :=
  bind (get (nth_error sp (fst x))) (fun b => bind (get (nth_error sp (snd x))) (fun k => f b k)).
Lemma block_list : forall sp o T0 f G,
  (forall i k x y, (i <= k)%nat -> nth_error sp i = Some x -> nth_error sp k = Some y ->
     jt_rule (o_J0 o) T0 (o_g0 o) (r_J x) (r_T x) (r_g x) (r_J y) (r_T y) (r_g y) ->
     exists m, f x y = Ok m /\ rows m = r_dim x /\ cols m = r_dim y /\ forall u v, (u < r_dim x)%nat -> (v < r_dim y)%nat -> at_ m u v = G x y u v) ->
  exists ms, map_blocks (block_of sp f) (jt_sectors r_J r_T r_g sp (o_J0 o) T0 (o_g0 o)) = Ok ms
  /\ length ms = length (jt_sectors r_J r_T r_g sp (o_J0 o) T0 (o_g0 o))
  /\ forall q i k x y, nth_error (jt_sectors r_J r_T r_g sp (o_J0 o) T0 (o_g0 o)) q = Some (i, k) -> nth_error sp i = Some x -> nth_error sp k = Some y ->
     exists m, nth_error ms q = Some m /\ rows m = r_dim x /\ cols m = r_dim y
     /\ forall u v, (u < r_dim x)%nat -> (v < r_dim y)%nat -> at_ m u v = G x y u v.
Proof.
  intros sp o T0 f G H. set (s := jt_sectors _ _ _ _ _ _ _).
  assert (Hok : forall x, In x s -> exists m, block_of sp f x = Ok m).
  { intros [i k] Hx. apply jt_sectors_in in Hx. destruct Hx as [Hle (x & y & Hx & Hy & Hj)].
    destruct (H i k x y Hle Hx Hy Hj) as (m & Em & _). exists m. unfold block_of. cbn [fst snd]. rewrite Hx. cbn [get bind]. rewrite Hy. cbn [get bind]. exact Em. }
  destruct (map_blocks_ok _ _ _ s Hok) as (ms & Ems & Lms & Nms). exists ms. split; [exact Ems|]. split; [exact Lms|].
  intros q i k x y Hq Hx Hy. pose proof (nth_error_In _ _ Hq) as Hin. apply jt_sectors_in in Hin.
  destruct Hin as [Hle (x' & y' & Hx' & Hy' & Hj)]. rewrite Hx in Hx'. injection Hx' as <-. rewrite Hy in Hy'. injection Hy' as <-.
  destruct (H i k x y Hle Hx Hy Hj) as (m & Em & Hm). exists m. split; [|exact Hm].
  destruct (Nms q (i, k) Hq) as (m' & Hm' & Em'). unfold block_of in Em'. cbn [fst snd] in Em'. rewrite Hx in Em'. cbn [get bind] in Em'. rewrite Hy in Em'.
  cbn [get bind] in Em'. rewrite Em in Em'. injection Em' as <-. exact Hm'.
Qed.
Lemma zero_component_ok : forall sp o T0, exists ms, zero_component o sp T0 =
  Ok (if (o_T0_min o <=? T0) && (T0 <=? o_T0_max o) then jt_sectors r_J r_T r_g sp (o_J0 o) T0 (o_g0 o) else [], ms)
  /\ length ms = length (if (o_T0_min o <=? T0) && (T0 <=? o_T0_max o) then jt_sectors r_J r_T r_g sp (o_J0 o) T0 (o_g0 o) else [])
  /\ forall q i k x y, nth_error (if (o_T0_min o <=? T0) && (T0 <=? o_T0_max o) then jt_sectors r_J r_T r_g sp (o_J0 o) T0 (o_g0 o) else []) q = Some (i, k) ->
     nth_error sp i = Some x -> nth_error sp k = Some y ->
     exists m, nth_error ms q = Some m /\ rows m = r_dim x /\ cols m = r_dim y
     /\ forall u v, (u < r_dim x)%nat -> (v < r_dim y)%nat -> at_ m u v = Num 0.
Proof.
  intros sp o T0. unfold zero_component. destruct ((o_T0_min o <=? T0) && (T0 <=? o_T0_max o)).
  - destruct (block_list sp o T0 (fun b k => Ok (zero_block b k)) (fun _ _ _ _ => Num 0)) as (ms & E & L & N).
    { intros i k x y _ Hx Hy _. eexists. split; [reflexivity|]. repeat split. }
    unfold block_of in E. rewrite E. cbn [bind]. exists ms. split; [reflexivity|]. split; [exact L|exact N].
  - exists []. split; [reflexivity|]. split; [reflexivity|]. intros [|q] i k x y Hq; discriminate.
Qed.
Definition sectors_at (sp : rspace) (o : oplab) (T0 : Z) : lsectors :=
  if (o_T0_min o <=? T0) && (T0 <=? o_T0_max o) then jt_sectors r_J r_T r_g sp (o_J0 o) T0 (o_g0 o) else [].
Lemma sectors_at_in : forall sp o T0 i k, In (i, k) (sectors_at sp o T0) <-> in_range o T0 /\ (i <= k)%nat /\ exists x y, nth_error sp i = Some x /\ nth_error sp k = Some y
        /\ jt_rule (o_J0 o) T0 (o_g0 o) (r_J x) (r_T x) (r_g x) (r_J y) (r_T y) (r_g y).
Proof.
  intros sp o T0 i k. unfold sectors_at, in_range. destruct ((o_T0_min o <=? T0) && (T0 <=? o_T0_max o)) eqn:E.
  - rewrite andb_true_iff, !Z.leb_le in E. rewrite jt_sectors_in. tauto.
  - rewrite andb_false_iff, !Z.leb_gt in E. split; [intros []|]. intros [H _]. lia.
Qed.
Lemma sectors_at_nodup : forall sp o T0, NoDup (sectors_at sp o T0).
Proof. intros. unfold sectors_at. destruct (_ && _); [apply jt_sectors_nodup|constructor]. Qed.

(** the zero operator *)
Lemma zero_operator_parts : forall sp o, 0 <= o_T0_min o -> o_T0_max o <= 2 ->
  exists z, zero_operator o sp = Ok z /\ length z = 3%nat /\ forall T0, 0 <= T0 <= 2 -> exists ms, nth_error z (Z.to_nat T0) = Some (sectors_at sp o T0, ms)
  /\ length ms = length (sectors_at sp o T0)
  /\ forall q i k x y, nth_error (sectors_at sp o T0) q = Some (i, k) -> nth_error sp i = Some x -> nth_error sp k = Some y ->
     exists m, nth_error ms q = Some m /\ rows m = r_dim x /\ cols m = r_dim y /\ forall u v, (u < r_dim x)%nat -> (v < r_dim y)%nat -> at_ m u v = Num 0.
Proof.
  intros sp o H0 H2. unfold zero_operator. rewrite (proj2 (Z.ltb_ge _ _) H0), (proj2 (Z.ltb_ge _ _) H2). cbn [orb andb].
  destruct (map_blocks_ok _ _ (zero_component o sp) [0; 1; 2]) as (z & E & L & N).
  { intros t _. destruct (zero_component_ok sp o t) as (ms & Em & _). eexists. exact Em. }
  exists z. split; [exact E|]. split; [exact L|]. intros T0 HT.
  assert (Hn : nth_error [0; 1; 2] (Z.to_nat T0) = Some T0).
  { assert (HT3 : T0 = 0 \/ T0 = 1 \/ T0 = 2) by lia. destruct HT3 as [->|[->| ->]]; reflexivity. }
  destruct (N _ _ Hn) as (p & Hp & Ep). destruct (zero_component_ok sp o T0) as (ms & Em & Hl & Hm). rewrite Em in Ep. injection Ep as <-.
  exists ms. split; [exact Hp|]. split; [exact Hl|exact Hm].
Qed.
Lemma with_component_ok : forall sp o T0 f F, 0 <= o_T0_min o -> o_T0_max o <= 2 -> in_range o T0 ->
  (forall i k x y, (i <= k)%nat -> nth_error sp i = Some x -> nth_error sp k = Some y ->
     jt_rule (o_J0 o) T0 (o_g0 o) (r_J x) (r_T x) (r_g x) (r_J y) (r_T y) (r_g y) ->
     exists m, f x y = Ok m /\ rows m = r_dim x /\ cols m = r_dim y
     /\ forall u v, (u < r_dim x)%nat -> (v < r_dim y)%nat -> at_ m u v = Num (F T0 (rl x) (r_L x + 2 * Z.of_nat u) (rl y) (r_L y + 2 * Z.of_nat v))) ->
  (forall t x N y M, t <> T0 -> F t x N y M = 0%R) ->
  exists c, with_component o sp T0 f = Ok c /\ stores_num sp o c F.
Proof.
  intros sp o T0 f F H0 H2 Hr Hf Hz. destruct (zero_operator_parts sp o H0 H2) as (z & Ez & Lz & Nz). unfold with_component. rewrite Ez. cbn [bind].
  assert (HT : 0 <= T0 <= 2) by (unfold in_range in Hr; lia).
  destruct (Nz T0 HT) as (ms0 & Hn0 & _). unfold at_z. rewrite (proj2 (Z.ltb_ge T0 0)) by lia. rewrite Hn0. cbn [get bind].
  assert (Es : sectors_at sp o T0 = jt_sectors r_J r_T r_g sp (o_J0 o) T0 (o_g0 o)).
  { unfold sectors_at. destruct Hr as [Ha Hb]. rewrite (proj2 (Z.leb_le _ _) Ha), (proj2 (Z.leb_le _ _) Hb). reflexivity. }
  destruct (block_list sp o T0 f (fun x y u v => Num (F T0 (rl x) (r_L x + 2 * Z.of_nat u) (rl y) (r_L y + 2 * Z.of_nat v)))) as (ms & E & L & N).
  { exact Hf. }
  unfold block_of in E. rewrite Es, E. cbn [bind].
  destruct (store_some _ z (Z.to_nat T0) (sectors_at sp o T0, ms) ltac:(lia)) as (c & Ec & Lc & Nc & Oc).
  rewrite <- Es, Ec. exists c. split; [reflexivity|]. split; [lia|]. intros t Ht. exists (sectors_at sp o t). destruct (Z.eq_dec t T0) as [->|Hne].
  - exists ms. split; [exact Nc|]. split; [apply sectors_at_nodup|]. split; [rewrite Es; exact L|]. split; [intros; apply sectors_at_in|].
    intros q i k x y Hq Hx Hy. rewrite Es in Hq. destruct (N q i k x y Hq Hx Hy) as (m & Hm & R1 & R2 & A). exists m. auto.
  - destruct (Nz t Ht) as (ms' & Hn' & Lm' & Hm'). exists ms'. split; [rewrite Oc by lia; exact Hn'|]. split; [apply sectors_at_nodup|].
    split; [exact Lm'|]. split; [intros; apply sectors_at_in|]. intros q i k x y Hq Hx Hy. destruct (Hm' q i k x y Hq Hx Hy) as (m & Hm & R1 & R2 & A).
    exists m. split; [exact Hm|]. split; [exact R1|]. split; [exact R2|]. intros u v Hu Hv. rewrite A by assumption. rewrite Hz by exact Hne. reflexivity.
Qed.

(** a multiple of the identity *)
Lemma identity_block_ok : forall c b k, r_dim b = r_dim k -> exists m, identity_block c b k = Ok m /\ rows m = r_dim b /\ cols m = r_dim k
  /\ forall u v, (u < r_dim b)%nat -> (v < r_dim k)%nat -> at_ m u v = Num (if Nat.eqb u v then c else 0).
Proof.
  intros c b k Hd. unfold identity_block. rewrite (proj2 (Nat.eqb_eq _ _) Hd). cbn [cassert bind].
  assert (G : forall l (m : mat num), (forall n, In n l -> (n < rows m)%nat /\ (n < cols m)%nat) ->
    exists m', for_each l (fun n m => mat_put m n n (Num c)) m = Ok m' /\ rows m' = rows m /\ cols m' = cols m
    /\ forall u v, at_ m' u v = if Nat.eqb u v && existsb (Nat.eqb u) l then Num c else at_ m u v).
  { intros l. induction l as [|n l IH]; intros m Hl.
    - exists m. split; [reflexivity|]. split; [reflexivity|]. split; [reflexivity|]. intros u v. cbn. rewrite andb_false_r. reflexivity.
    - destruct (Hl n (or_introl eq_refl)) as [Ha Hb]. cbn [for_each]. unfold mat_put at 1. rewrite (proj2 (Nat.ltb_lt _ _) Ha), (proj2 (Nat.ltb_lt _ _) Hb).
      cbn [andb cassert bind]. destruct (IH (mset m n n (Num c))) as (m' & E & R1 & C1 & A).
      { intros n' Hn'. apply Hl. right. exact Hn'. }
      exists m'. split; [exact E|]. split; [exact R1|]. split; [exact C1|]. intros u v. rewrite A. unfold mset. cbn [at_ existsb].
      destruct (Nat.eqb u v) eqn:Euv; cbn [andb].
      + apply Nat.eqb_eq in Euv. subst v. destruct (Nat.eqb u n); cbn [orb andb]; [|reflexivity]. destruct (existsb _ l); reflexivity.
      + destruct (Nat.eqb u n) eqn:Eu; cbn [andb]; [|reflexivity]. destruct (Nat.eqb v n) eqn:Ev; [|reflexivity].
        apply Nat.eqb_eq in Eu, Ev. apply Nat.eqb_neq in Euv. congruence. }
  destruct (G (seq 0 (r_dim k)) (zero_block b k)) as (m & E & R1 & C1 & A).
  { intros n Hn. apply in_seq in Hn. cbn. lia. }
  exists m. split; [exact E|]. split; [exact R1|]. split; [exact C1|]. intros u v Hu Hv. rewrite A. destruct (Nat.eqb u v) eqn:Euv; cbn [andb]; [|reflexivity].
  assert (Hx : existsb (Nat.eqb u) (seq 0 (r_dim k)) = true).
  { apply existsb_exists. exists u. split; [apply in_seq; lia|apply Nat.eqb_refl]. }
  rewrite Hx. reflexivity.
Qed.
Lemma rlab_eqb_ok : forall x y, rlab_eqb x y = true <-> x = y.
Proof. intros [[[L s] J] T] [[[L' s'] J'] T']. cbn. rewrite !andb_true_iff, !Z.eqb_eq. split; [intros [[[-> ->] ->] ->]; reflexivity|intros E; injection E as -> -> -> ->; auto]. Qed.
Lemma rlab_eqb_refl : forall x, rlab_eqb x x = true.
Proof. intros x. apply rlab_eqb_ok. reflexivity. Qed.
