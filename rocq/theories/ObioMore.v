(** Density elements whose labels are not those of states of the space. *)
From Coq Require Import List ZArith Reals Bool Ascii Lia Lra.
From Verif Require Import Base BaseLemmas RMat H2Model MapModel OscModel OscSpec OscProof OscFinal BlockModel BlockSpec BlockProof BlockFinal ObioModel ObioSpec ObioProof ObioFinal.
Import ListNotations.
Open Scope R_scope.

Lemma state_index_carries : forall sp o P p, state_index sp o = Some (P, p) -> carries sp o P p.
Proof.
  intros sp o P p H. unfold state_index in H. destruct (fl_sp o) as [s|] eqn:Es; [|discriminate].
  destruct (look_up_subspace sp (LL s (fl_l o) (fl_2j o))) as [P'|] eqn:EP; [|discriminate]. destruct (nth_error sp P') as [x|] eqn:Ex; [|discriminate].
  destruct (find_ix (fun n => (n =? fl_n o)%Z) (snd x)) as [i|] eqn:Ei; [|discriminate]. cbn in H. injection H as <- <-.
  apply look_up_subspace_some in EP. destruct EP as [_ EP]. unfold label_of in EP. rewrite Ex in EP. cbn in EP.
  apply find_ix_some in Ei. destruct Ei as (n & En & Hn). apply Z.eqb_eq in Hn. subst n.
  exists s, x. split; [exact Es|]. split; [exact Ex|]. split; [congruence|exact En].
Qed.
Lemma put_unlocated : forall al sp g0 Tz0 d b k J0 v, density_ok al sp g0 Tz0 d -> ~ located al sp (de_min d) (de_max d) g0 Tz0 b k J0 ->
  put_labelled sp d b k J0 v = AssertFail.
Proof.
  intros al sp g0 Tz0 d b k J0 v Hd Hn. unfold put_labelled, multipole_index.
  destruct (Z.leb_spec (de_min d) J0) as [H1|]; [|reflexivity]. destruct (Z.leb_spec J0 (de_max d)) as [H2|]; [|reflexivity]. cbn [andb cassert bind].
  rewrite (density_sectors _ _ _ _ _ _ Hd (conj H1 H2)). cbn [get bind]. unfold me_indices.
  destruct (state_index sp b) as [[P p]|] eqn:Eb; [|reflexivity]. destruct (state_index sp k) as [[Q q]|] eqn:Ek; [|reflexivity].
  destruct (look_up_sector (mk_lsectors al sp sp J0 g0 Tz0) P Q) as [x|] eqn:Ex; [|reflexivity]. exfalso. apply Hn. split; [auto|]. exists P, p, Q, q.
  split; [apply state_index_carries; exact Eb|]. split; [apply state_index_carries; exact Ek|]. apply look_up_some in Ex. eapply nth_error_In; exact Ex.
Qed.
Lemma for_each_app : forall A S (l m : list A) (f : A -> S -> outcome S) s, for_each (l ++ m) f s = bind (for_each l f s) (for_each m f).
Proof.
  intros A S l m f. induction l as [|x l IH]; intros s; [reflexivity|]. cbn [app for_each]. destruct (f x s); cbn [bind]; try reflexivity. apply IH.
Qed.
Lemma put_all_unlocated : forall al sp g0 Tz0 pre (e : element) post d, space_ok sp -> density_ok al sp g0 Tz0 d ->
  Forall (fun e : element => let '(b, k, J0, v) := e in located al sp (de_min d) (de_max d) g0 Tz0 b k J0) pre ->
  (let '(b, k, J0, v) := e in ~ located al sp (de_min d) (de_max d) g0 Tz0 b k J0) -> put_all sp (pre ++ e :: post) d = AssertFail.
Proof.
  intros al sp g0 Tz0 pre [[[b k] J0] v] post d Hs Hd Hpre He. unfold put_all. rewrite for_each_app.
  destruct (put_all_ok al sp g0 Tz0 pre d Hs Hd Hpre) as (d' & E & Hd' & Hmin & Hmax & _). unfold put_all in E. rewrite E. cbn [bind for_each].
  rewrite (put_unlocated al sp g0 Tz0); [reflexivity|exact Hd'|]. rewrite Hmin, Hmax. exact He.
Qed.
Lemma combine_split : forall A B (l : list A) x (r : list A) (vs : list B), length vs = length (l ++ x :: r) ->
  exists v1 v v2, vs = v1 ++ v :: v2 /\ length v1 = length l /\ combine (l ++ x :: r) vs = combine l v1 ++ (x, v) :: combine r v2.
Proof.
  intros A B l x r. induction l as [|a l IH]; intros [|v vs] H; try discriminate; cbn in H.
  - exists [], v, vs. repeat split.
  - destruct (IH vs) as (v1 & w & v2 & -> & E & Ec); [lia|]. exists (v :: v1), w, v2. split; [reflexivity|]. split; [cbn; congruence|]. cbn. rewrite Ec. reflexivity.
Qed.
Theorem multi_unlocated : forall al sp J0_max g0 Tz0 pre i post ws, space_ok sp -> (-1 <= J0_max)%Z ->
  Forall (fun i => located al sp 0 J0_max g0 Tz0 (il_bra i) (il_ket i) (il_J0 i)) pre -> ~ located al sp 0 J0_max g0 Tz0 (il_bra i) (il_ket i) (il_J0 i) ->
  read_multi al sp J0_max g0 Tz0 (pre ++ i :: post) (length (pre ++ i :: post)) ws = AssertFail.
Proof.
  intros al sp J0_max g0 Tz0 pre i post ws Hs HJ Hpre Hi. unfold read_multi. rewrite Nat.eqb_refl. cbn [cassert bind].
  destruct (init_ok al sp 0 J0_max g0 Tz0 ltac:(lia)) as (d0 & E0 & Hd0 & Hmin & Hmax & Hz). rewrite E0. cbn [bind].
  destruct (loop_any sp (pre ++ i :: post) 0 false ws d0) as (vs & Hl & Ev). rewrite Ev.
  destruct (combine_split _ _ _ _ _ _ Hl) as (v1 & v & v2 & -> & _ & Ec). rewrite Ec, map_app. cbn [map fst snd].
  apply (put_all_unlocated al sp g0 Tz0); try assumption; rewrite Hmin, Hmax.
  - apply (combine_located al sp 0 J0_max g0 Tz0 pre v1 (fun _ v => v)). exact Hpre.
  - exact Hi.
Qed.
Theorem class_unlocated : forall al sp a b g0 Tz0 lines t x ia na la ja ib nb lb jb J0 cls, nth_error lines t = Some (x, (ia, na, la, ja), (ib, nb, lb, jb), J0, cls) ->
  cls <> 1%Z -> cls <> 2%Z -> exists i, nth_error (info_1500 lines) t = Some i /\ ~ located al sp a b g0 Tz0 (il_bra i) (il_ket i) (il_J0 i).
Proof.
  intros al sp a b g0 Tz0 lines t x ia na la ja ib nb lb jb J0 cls H H1 H2. unfold info_1500. rewrite nth_error_map, H. cbn [option_map]. eexists. split; [reflexivity|].
  intros (_ & P & p & Q & q & (s & y & Es & _) & _). cbn in Es. unfold class_species in Es. rewrite (proj2 (Z.eqb_neq cls 1) H1), (proj2 (Z.eqb_neq cls 2) H2) in Es. discriminate.
Qed.

Definition line_labels (orbs : list flab) (l : data_line) (a b : flab) : Prop :=
  (1 <= dl_a l)%Z /\ (1 <= dl_b l)%Z /\ nth_error orbs (Z.to_nat (dl_a l - 1)) = Some a /\ nth_error orbs (Z.to_nat (dl_b l - 1)) = Some b.
Lemma read_1520_pre : forall al sp g0 Tz0 orbs pre l post nl d, space_ok sp -> density_ok al sp g0 Tz0 d -> Forall (line_located al sp (de_min d) (de_max d) g0 Tz0 orbs) pre ->
  exists d', read_data_1520 sp orbs nl (pre ++ l :: post) d = read_data_1520 sp orbs nl (l :: post) d' /\ density_ok al sp g0 Tz0 d' /\ de_min d' = de_min d /\ de_max d' = de_max d.
Proof.
  intros al sp g0 Tz0 orbs pre l post nl. induction pre as [|x pre IH]; intros d Hs Hd Hf.
  - exists d. repeat split; try reflexivity; apply Hd.
  - inversion Hf as [|? ? (Ha & Hb & oa & ob & Ea & Eb & HJ & P & p & Q & q & Hca & Hcb & Hin) Hf']; subst.
    destruct (put_labelled_ok al sp g0 Tz0 d oa ob (dl_J0 x) (dl_v x / hat (fl_2j oa)) P p Q q Hs Hd HJ Hca Hcb Hin) as (d1 & E1 & Hd1 & Hmin & Hmax & _).
    destruct (IH d1 Hs Hd1) as (d' & E' & Hd' & Hmin' & Hmax'); [rewrite Hmin, Hmax; exact Hf'|].
    exists d'. split; [|repeat split; try apply Hd'; congruence]. rewrite <- E'. cbn [app read_data_1520].
    replace (is_nil (pre ++ l :: post) && negb nl) with false by (destruct pre; reflexivity).
    rewrite (proj2 (Z.leb_le _ _) Ha), (proj2 (Z.leb_le _ _) Hb), Ea, Eb. cbn [bind]. rewrite E1. reflexivity.
Qed.
Theorem single_unlocated : forall al sp J0_min J0_max g0 Tz0 orbs announced pre l post a b, space_ok sp -> (J0_min <= J0_max + 1)%Z ->
  Forall (line_located al sp J0_min J0_max g0 Tz0 orbs) pre -> line_labels orbs l a b -> ~ located al sp J0_min J0_max g0 Tz0 a b (dl_J0 l) ->
  read_single al sp J0_min J0_max g0 Tz0 orbs announced true (pre ++ l :: post) = AssertFail.
Proof.
  intros al sp J0_min J0_max g0 Tz0 orbs announced pre l post a b Hs HJ Hpre (Ha & Hb & Ea & Eb) Hn. unfold read_single.
  destruct (init_ok al sp J0_min J0_max g0 Tz0 ltac:(lia)) as (d0 & E0 & Hd0 & Hmin & Hmax & Hz). rewrite E0. cbn [bind].
  destruct (read_1520_pre al sp g0 Tz0 orbs pre l post true d0 Hs Hd0) as (d' & E' & Hd' & Hmin' & Hmax'); [rewrite Hmin, Hmax; exact Hpre|]. rewrite E'.
  cbn [read_data_1520]. rewrite andb_false_r, (proj2 (Z.leb_le _ _) Ha), (proj2 (Z.leb_le _ _) Hb), Ea, Eb. cbn [bind].
  rewrite (put_unlocated al sp g0 Tz0); [reflexivity|exact Hd'|]. rewrite Hmin', Hmax', Hmin, Hmax. exact Hn.
Qed.
Theorem single_bad_index : forall al sp J0_min J0_max g0 Tz0 orbs announced pre l post, space_ok sp -> (J0_min <= J0_max + 1)%Z ->
  Forall (line_located al sp J0_min J0_max g0 Tz0 orbs) pre -> ~ (1 <= dl_a l <= Z.of_nat (length orbs))%Z \/ ~ (1 <= dl_b l <= Z.of_nat (length orbs))%Z ->
  read_single al sp J0_min J0_max g0 Tz0 orbs announced true (pre ++ l :: post) = Exit.
Proof.
  intros al sp J0_min J0_max g0 Tz0 orbs announced pre l post Hs HJ Hpre Hn. unfold read_single.
  destruct (init_ok al sp J0_min J0_max g0 Tz0 ltac:(lia)) as (d0 & E0 & Hd0 & Hmin & Hmax & Hz). rewrite E0. cbn [bind].
  destruct (read_1520_pre al sp g0 Tz0 orbs pre l post true d0 Hs Hd0) as (d' & E' & Hd' & Hmin' & Hmax'); [rewrite Hmin, Hmax; exact Hpre|]. rewrite E'.
  cbn [read_data_1520]. rewrite andb_false_r.
  assert (G : forall z, ~ (1 <= z <= Z.of_nat (length orbs))%Z -> (if (1 <=? z)%Z then nth_error orbs (Z.to_nat (z - 1)) else None) = None).
  { intros z Hz'. destruct (Z.leb_spec 1 z); [|reflexivity]. apply nth_error_None. lia. }
  destruct Hn as [Hn|Hn].
  - rewrite (G _ Hn). reflexivity.
  - rewrite (G _ Hn). destruct (if (1 <=? dl_a l)%Z then _ else _); reflexivity.
Qed.
