(** Proofs about density files and one-body observables. *)
From Coq Require Import List ZArith Reals Bool Ascii Lia Lra.
From Verif Require Import Base BaseLemmas RMat H2Model MapModel OscModel OscSpec OscProof OscFinal BlockModel BlockSpec BlockProof BlockFinal ObioModel ObioSpec ObioProof.
Import ListNotations.
Open Scope R_scope.

Lemma store_ok : forall A (v : list A) i x, (i < length v)%nat -> exists r, store v i x = Ok r /\ length r = length v
  /\ nth_error r i = Some x /\ forall j, j <> i -> nth_error r j = nth_error v j.
Proof.
  intros A v. induction v as [|y v IH]; intros i x Hi; [cbn in Hi; lia|]. destruct i as [|i]; cbn [store].
  - exists (x :: v). repeat split. intros [|j] Hj; [congruence|reflexivity].
  - cbn in Hi. destruct (IH i x ltac:(lia)) as (r & E & Hl & Hx & Ho). rewrite E. cbn [bind]. exists (y :: r). split; [reflexivity|]. split; [cbn; congruence|].
    split; [exact Hx|]. intros [|j] Hj; [reflexivity|]. cbn. apply Ho. congruence.
Qed.
Lemma Forall2_nth : forall A B (R : A -> B -> Prop) l m, length l = length m ->
  (forall i x y, nth_error l i = Some x -> nth_error m i = Some y -> R x y) -> Forall2 R l m.
Proof.
  intros A B R l. induction l as [|x l IH]; intros [|y m] Hl H; try discriminate; [constructor|]. constructor; [apply (H 0%nat); reflexivity|].
  apply IH; [cbn in Hl; lia|]. intros i. apply (H (S i)).
Qed.
Lemma Forall2_nth_r : forall A B (R : A -> B -> Prop) l m i x, Forall2 R l m -> nth_error l i = Some x -> exists y, nth_error m i = Some y /\ R x y.
Proof.
  intros A B R l m i x H. revert i. induction H; intros [|i] Hi; try discriminate; [injection Hi as ->; cbn; eauto|cbn in *; auto].
Qed.
Lemma Forall2_nth_rel : forall A B (R : A -> B -> Prop) l m i x y, Forall2 R l m -> nth_error l i = Some x -> nth_error m i = Some y -> R x y.
Proof. intros A B R l m i x y H Hx Hy. destruct (Forall2_nth_r _ _ _ _ _ _ _ H Hx) as (y' & E & HR). congruence. Qed.

Lemma find_ix_nth : forall (l : list Z) n p, NoDup l -> nth_error l p = Some n -> find_ix (fun m => (m =? n)%Z) l = Some p.
Proof.
  induction l as [|x l IH]; intros n p Hn H; [destruct p; discriminate|]. inversion Hn; subst. destruct p as [|p]; cbn in *.
  - injection H as ->. rewrite Z.eqb_refl. reflexivity.
  - destruct (Z.eqb_spec x n) as [->|]; [elim H2; eapply nth_error_In; exact H|]. rewrite (IH n p) by assumption. reflexivity.
Qed.
Lemma state_index_ok : forall sp o P p, space_ok sp -> carries sp o P p -> state_index sp o = Some (P, p).
Proof.
  intros sp o P p [Hd Hn] (s & x & Es & Ex & El & Ep). unfold state_index. rewrite Es.
  assert (HP : look_up_subspace sp (LL s (fl_l o) (fl_2j o)) = Some P).
  { destruct (look_up_subspace sp (LL s (fl_l o) (fl_2j o))) as [P'|] eqn:E.
    - f_equal. apply look_up_subspace_some in E. destruct E as [_ E]. eapply label_unique; [exact Hd|exact E|]. unfold label_of. rewrite Ex. cbn. congruence.
    - exfalso. eapply look_up_subspace_none; [exact E|]. instantiate (1 := P). unfold label_of. rewrite Ex. cbn. congruence. }
  rewrite HP, Ex. rewrite (find_ix_nth _ _ p); [reflexivity| |exact Ep]. rewrite Forall_forall in Hn. apply Hn. eapply nth_error_In; exact Ex.
Qed.
Lemma carries_inj : forall sp o o' P p, carries sp o P p -> carries sp o' P p -> o = o'.
Proof.
  intros sp [s n l j] [s' n' l' j'] P p (t & x & E1 & E2 & E3 & E4) (t' & x' & E1' & E2' & E3' & E4'). cbn in *. rewrite E2 in E2'. injection E2' as <-.
  rewrite E3 in E3'. injection E3' as -> -> ->. congruence.
Qed.
Lemma carries_fun : forall sp o P p P' p', space_ok sp -> carries sp o P p -> carries sp o P' p' -> P = P' /\ p = p'.
Proof. intros sp o P p P' p' Hs H H'. apply state_index_ok in H; [|exact Hs]. apply state_index_ok in H'; [|exact Hs]. rewrite H in H'. injection H' as -> ->. auto. Qed.
Lemma carries_state : forall sp o P p, carries sp o P p -> state sp P p.
Proof.
  intros sp o P p (s & x & _ & Ex & _ & Ep). split; [apply nth_error_Some; congruence|]. unfold sub_dim. rewrite Ex. destruct x as [a ns]. cbn in Ep.
  apply nth_error_Some. congruence.
Qed.
Lemma me_indices_ok : forall sp ss b k P p Q q, space_ok sp -> carries sp b P p -> carries sp k Q q -> In (P, Q) ss ->
  exists x, me_indices sp ss b k = Some (x, p, q) /\ nth_error ss x = Some (P, Q).
Proof.
  intros sp ss b k P p Q q Hs Hb Hk Hin. unfold me_indices. rewrite (state_index_ok _ _ _ _ Hs Hb), (state_index_ok _ _ _ _ Hs Hk).
  destruct (look_up_sector ss P Q) as [x|] eqn:E; [|apply look_up_none in E; contradiction]. exists x. split; [reflexivity|apply look_up_some; exact E].
Qed.

Lemma op_ok_update : forall sp s m x P Q p q v b m', op_ok sp sp s m -> nth_error s x = Some (P, Q) -> nth_error m x = Some b -> store m x (mset b p q v) = Ok m' ->
  op_ok sp sp s m' /\ forall P' p' Q' q', entry s m' P' p' Q' q'
    = if Nat.eqb P' P && Nat.eqb p' p && Nat.eqb Q' Q && Nat.eqb q' q then v else entry s m P' p' Q' q'.
Proof.
  intros sp s m x P Q p q v b m' [Hn Hf] Hx Hb Hst.
  assert (Hlx : (x < length m)%nat) by (apply nth_error_Some; congruence).
  destruct (store_ok _ m x (mset b p q v) Hlx) as (r & E & Hl & Hr & Ho). rewrite Hst in E. injection E as <-.
  pose proof (Forall2_len _ _ _ _ _ Hf) as Hlen. split.
  - split; [exact Hn|]. apply Forall2_nth; [congruence|]. intros i y z Hy Hz. destruct (Nat.eq_dec i x) as [->|Hne].
    + rewrite Hr in Hz. injection Hz as <-. exact (Forall2_nth_rel _ _ _ _ _ _ _ _ Hf Hy Hb).
    + rewrite Ho in Hz by exact Hne. exact (Forall2_nth_rel _ _ _ _ _ _ _ _ Hf Hy Hz).
  - intros P' p' Q' q'. destruct (look_up_sector s P' Q') as [y|] eqn:Ey.
    + apply look_up_some in Ey. destruct (Forall2_nth_r _ _ _ _ _ _ _ Hf Ey) as (c & Hc & _).
      destruct (Nat.eq_dec y x) as [->|Hne].
      * rewrite Hx in Ey. injection Ey as <- <-. rewrite (entry_found _ _ _ _ _ _ _ _ Hn Hx Hr), (entry_found _ _ _ _ _ _ _ _ Hn Hx Hb). cbn [mset at_].
        rewrite !Nat.eqb_refl. cbn [andb]. rewrite andb_true_r. reflexivity.
      * rewrite (entry_found _ _ _ _ _ _ _ _ Hn Ey (eq_trans (Ho y Hne) Hc)), (entry_found _ _ _ _ _ _ _ _ Hn Ey Hc).
        destruct (Nat.eqb_spec P' P) as [->|]; [|reflexivity]. destruct (Nat.eqb_spec Q' Q) as [->|]; [|rewrite andb_false_r; reflexivity].
        exfalso. apply Hne. apply (proj1 (NoDup_nth_error s) Hn); [apply nth_error_Some; congruence|congruence].
    + apply look_up_none in Ey. rewrite !entry_absent by exact Ey. destruct (Nat.eqb_spec P' P) as [->|]; [|reflexivity].
      destruct (Nat.eqb_spec Q' Q) as [->|]; [|rewrite andb_false_r; reflexivity]. elim Ey. eapply nth_error_In; exact Hx.
Qed.

Lemma zrange_nth : forall a b z, (a <= z <= b)%Z -> nth_error (zrange a b) (Z.to_nat (z - a)) = Some z.
Proof.
  intros a b z H. unfold zrange. rewrite nth_error_map. assert (Hlt : (Z.to_nat (z - a) < Z.to_nat (b - a + 1))%nat) by lia.
  rewrite (nth_error_nth' _ 0%nat) by (rewrite seq_length; exact Hlt). cbn [option_map]. rewrite seq_nth by exact Hlt. f_equal. lia.
Qed.
Lemma density_sectors : forall al sp g0 Tz0 d J0, density_ok al sp g0 Tz0 d -> (de_min d <= J0 <= de_max d)%Z ->
  nth_error (de_sectors d) (Z.to_nat (J0 - de_min d)) = Some (mk_lsectors al sp sp J0 g0 Tz0).
Proof. intros al sp g0 Tz0 d J0 [H _] HJ. rewrite H, nth_error_map, zrange_nth by exact HJ. reflexivity. Qed.

Theorem put_labelled_ok : forall al sp g0 Tz0 d b k J0 v P p Q q, space_ok sp -> density_ok al sp g0 Tz0 d -> (de_min d <= J0 <= de_max d)%Z ->
  carries sp b P p -> carries sp k Q q -> In (P, Q) (mk_lsectors al sp sp J0 g0 Tz0) ->
  exists d', put_labelled sp d b k J0 v = Ok d' /\ density_ok al sp g0 Tz0 d' /\ de_min d' = de_min d /\ de_max d' = de_max d
  /\ forall J0' P' p' Q' q', (de_min d <= J0' <= de_max d)%Z -> density_entry d' J0' P' p' Q' q'
     = if (J0' =? J0)%Z && (Nat.eqb P' P && Nat.eqb p' p && Nat.eqb Q' Q && Nat.eqb q' q) then v else density_entry d J0' P' p' Q' q'.
Proof.
  intros al sp g0 Tz0 d b k J0 v P p Q q Hs Hd HJ Hb Hk Hin. unfold put_labelled, multipole_index.
  rewrite (proj2 (Z.leb_le _ _) (proj1 HJ)), (proj2 (Z.leb_le _ _) (proj2 HJ)). cbn [andb cassert bind].
  pose proof (density_sectors _ _ _ _ _ _ Hd HJ) as Hss. set (z := Z.to_nat (J0 - de_min d)) in *. rewrite Hss. cbn [get bind].
  destruct (me_indices_ok sp _ b k P p Q q Hs Hb Hk Hin) as (x & Ex & Hx). rewrite Ex. unfold put.
  destruct Hd as [Hd1 Hd2]. destruct (Forall2_nth_r _ _ _ _ _ _ _ Hd2 Hss) as (bs & Ebs & Hop). rewrite Ebs. cbn [get bind].
  pose proof Hop as [Hnd Hf2]. destruct (Forall2_nth_r _ _ _ _ _ _ _ Hf2 Hx) as (m & Em & _ & _ & Hr & Hc). rewrite Em. cbn [get bind].
  cbn [fst snd] in Hr, Hc. destruct (carries_state _ _ _ _ Hb) as [_ Hp]. destruct (carries_state _ _ _ _ Hk) as [_ Hq]. unfold mat_put. rewrite Hr, Hc.
  rewrite (proj2 (Nat.ltb_lt _ _) Hp), (proj2 (Nat.ltb_lt _ _) Hq). cbn [andb cassert bind].
  assert (Hxl : (x < length bs)%nat) by (apply nth_error_Some; congruence).
  destruct (store_ok _ bs x (mset m p q v) Hxl) as (bs' & Es & _). rewrite Es. cbn [bind].
  destruct (op_ok_update sp _ bs x P Q p q v m bs' Hop Hx Em Es) as [Hop' Hent].
  assert (Hzl : (z < length (de_blocks d))%nat) by (apply nth_error_Some; congruence).
  destruct (store_ok _ (de_blocks d) z bs' Hzl) as (all & Ea & Hal & Haz & Hao). rewrite Ea. cbn [bind].
  eexists. split; [reflexivity|]. split.
  { split; [exact Hd1|]. cbn [de_sectors de_blocks]. apply Forall2_nth; [pose proof (Forall2_len _ _ _ _ _ Hd2); congruence|].
    intros i s y Hs' Hy. destruct (Nat.eq_dec i z) as [->|Hne].
    - rewrite Hss in Hs'. injection Hs' as <-. rewrite Haz in Hy. injection Hy as <-. exact Hop'.
    - rewrite Hao in Hy by exact Hne. exact (Forall2_nth_rel _ _ _ _ _ _ _ _ Hd2 Hs' Hy). }
  split; [reflexivity|]. split; [reflexivity|]. intros J0' P' p' Q' q' HJ'. unfold density_entry. cbn [de_sectors de_blocks de_min].
  destruct (Z.eqb_spec J0' J0) as [->|Hne]; cbn [andb].
  - fold z. rewrite Hss, Haz, Ebs. apply Hent.
  - rewrite Hao; [reflexivity|]. unfold z. lia.
Qed.

(** a sequence of labelled elements *)
Definition element : Type := flab * flab * Z * R.
Definition put_all (sp : lspace) (els : list element) (d : density) : outcome density :=
  for_each els (fun e d => let '(b, k, J0, v) := e in put_labelled sp d b k J0 v) d.
Definition key (e : element) : flab * flab * Z := fst e.
Theorem put_all_ok : forall al sp g0 Tz0 els d, space_ok sp -> density_ok al sp g0 Tz0 d ->
  Forall (fun e : element => let '(b, k, J0, v) := e in located al sp (de_min d) (de_max d) g0 Tz0 b k J0) els ->
  exists d', put_all sp els d = Ok d' /\ density_ok al sp g0 Tz0 d' /\ de_min d' = de_min d /\ de_max d' = de_max d
  /\ (NoDup (map key els) -> forall b k J0 v P p Q q, In (b, k, J0, v) els -> carries sp b P p -> carries sp k Q q -> density_entry d' J0 P p Q q = v)
  /\ (forall J0 P p Q q, (de_min d <= J0 <= de_max d)%Z -> (forall b k v, In (b, k, J0, v) els -> ~ (carries sp b P p /\ carries sp k Q q)) ->
       density_entry d' J0 P p Q q = density_entry d J0 P p Q q).
Proof.
  intros al sp g0 Tz0 els. induction els as [|[[[b k] J0] v] els IH]; intros d Hs Hd Hloc.
  - exists d. cbn. repeat split; auto; try apply Hd. intros; contradiction.
  - inversion Hloc as [|? ? Hl Hloc']; subst. destruct Hl as (HJ & P & p & Q & q & Hb & Hk & Hin).
    destruct (put_labelled_ok al sp g0 Tz0 d b k J0 v P p Q q Hs Hd HJ Hb Hk Hin) as (d1 & E1 & Hd1 & Hmin & Hmax & Hent).
    destruct (IH d1 Hs Hd1) as (d' & E' & Hd' & Hmin' & Hmax' & Hval & Hrest); [rewrite Hmin, Hmax; exact Hloc'|].
    exists d'. unfold put_all. cbn [for_each]. rewrite E1. cbn [bind]. split; [exact E'|]. split; [exact Hd'|]. split; [congruence|]. split; [congruence|]. split.
    + intros Hnd b' k' J0' v' P' p' Q' q' [E|Hin'] Hb' Hk'.
      * injection E as <- <- <- <-. destruct (carries_fun _ _ _ _ _ _ Hs Hb Hb') as [<- <-]. destruct (carries_fun _ _ _ _ _ _ Hs Hk Hk') as [<- <-].
        rewrite Hrest; [|rewrite Hmin, Hmax; exact HJ|].
        -- rewrite Hent by exact HJ. rewrite Z.eqb_refl, !Nat.eqb_refl. reflexivity.
        -- intros b' k' v' Hin' [Hb'' Hk'']. pose proof (carries_inj _ _ _ _ _ Hb Hb'') as <-. pose proof (carries_inj _ _ _ _ _ Hk Hk'') as <-.
           cbn in Hnd. inversion Hnd; subst. apply H1. apply in_map_iff. exists (b, k, J0, v'). auto.
      * cbn in Hnd. inversion Hnd; subst. eapply Hval; eassumption.
    + intros J0' P' p' Q' q' HJ' Hno. rewrite Hrest; [|rewrite Hmin, Hmax; exact HJ'|intros b' k' v' Hin'; apply (Hno b' k' v'); right; exact Hin'].
      rewrite Hent by exact HJ'. destruct (Z.eqb_spec J0' J0) as [->|]; [|reflexivity]. cbn [andb].
      destruct (Nat.eqb_spec P' P) as [->|]; [|reflexivity]. destruct (Nat.eqb_spec p' p) as [->|]; [|reflexivity].
      destruct (Nat.eqb_spec Q' Q) as [->|]; [|reflexivity]. destruct (Nat.eqb_spec q' q) as [->|]; [|reflexivity].
      exfalso. apply (Hno b k v); [left; reflexivity|auto].
Qed.

Lemma zero_op_ok : forall al sp J0 g0 Tz0, op_ok sp sp (mk_lsectors al sp sp J0 g0 Tz0) (zero_blocks 0 sp sp (mk_lsectors al sp sp J0 g0 Tz0)).
Proof.
  intros. split; [apply mk_lsectors_nodup|]. unfold zero_blocks. apply Forall2_nth; [rewrite map_length; reflexivity|].
  intros i [P Q] m Hx Hm. rewrite nth_error_map, Hx in Hm. injection Hm as <-. apply nth_error_In, mk_lsectors_in in Hx. cbn. tauto.
Qed.
Lemma zero_entry : forall sp s P p Q q, entry s (zero_blocks 0 sp sp s) P p Q q = 0.
Proof.
  intros sp s P p Q q. unfold zero_blocks. induction s as [|[P' Q'] s IH]; [reflexivity|]. cbn. destruct (Nat.eq_dec P' P); [|exact IH]. destruct (Nat.eq_dec Q' Q); [reflexivity|exact IH].
Qed.
Lemma init_ok : forall al sp a b g0 Tz0, (a <= b + 1)%Z -> exists d, init_storage al sp a b g0 Tz0 = Ok d /\ density_ok al sp g0 Tz0 d
  /\ de_min d = a /\ de_max d = b /\ forall J0 P p Q q, density_entry d J0 P p Q q = 0.
Proof.
  intros al sp a b g0 Tz0 H. unfold init_storage. rewrite (proj2 (Z.leb_le _ _)) by lia. cbn [check bind]. eexists. split; [reflexivity|]. split.
  - split; [reflexivity|]. cbn [de_sectors de_blocks]. induction (zrange a b); constructor; [apply zero_op_ok|assumption].
  - split; [reflexivity|]. split; [reflexivity|]. intros J0 P p Q q. unfold density_entry. cbn [de_sectors de_blocks]. rewrite !nth_error_map.
    destruct (nth_error (zrange a b) _) as [J|]; [|reflexivity]. cbn [option_map]. apply zero_entry.
Qed.

(** * Multi-file densities *)
Definition scaled (i : info_line) (v : R) : R := v * k_sqrt_4pi / hat (fl_2j (il_bra i)).
Definition el_of (i : info_line) (v : R) : element := (il_bra i, il_ket i, il_J0 i, v).
Lemma loop_full : forall sp info vs rest x d, length vs = length info ->
  read_data_loop sp info x false (map Some vs ++ rest) d = put_all sp (map (fun iv => el_of (fst iv) (scaled (fst iv) (snd iv))) (combine info vs)) d.
Proof.
  intros sp info. induction info as [|i info IH]; intros [|v vs] rest x d Hl; try discriminate; [reflexivity|].
  cbn [read_data_loop map app extract combine]. unfold put_all. cbn [for_each el_of fst snd]. unfold scaled at 1.
  destruct (put_labelled _ _ _ _ _ _); try reflexivity. cbn [bind]. rewrite IH by (cbn in Hl; lia). reflexivity.
Qed.
Lemma loop_any : forall sp info x fail ws d, exists vs, length vs = length info /\
  read_data_loop sp info x fail ws d = put_all sp (map (fun iv => el_of (fst iv) (snd iv)) (combine info vs)) d.
Proof.
  intros sp info. induction info as [|i info IH]; intros x fail ws d; [exists []; split; reflexivity|].
  cbn [read_data_loop]. destruct (extract x fail ws) as [[x1 f1] ws1]. set (v := x1 * k_sqrt_4pi / hat (fl_2j (il_bra i))).
  destruct (put_labelled sp d (il_bra i) (il_ket i) (il_J0 i) v) as [d1| | |] eqn:E.
  - destruct (IH v f1 ws1 d1) as (vs & Hl & Ev). exists (v :: vs). split; [cbn; congruence|]. cbn [bind combine map]. unfold put_all. cbn [for_each el_of fst snd]. rewrite E. cbn [bind]. exact Ev.
  - exists (v :: repeat 0 (length info)). split; [cbn; rewrite repeat_length; reflexivity|]. cbn [bind combine map]. unfold put_all. cbn [for_each el_of fst snd]. rewrite E. reflexivity.
  - exists (v :: repeat 0 (length info)). split; [cbn; rewrite repeat_length; reflexivity|]. cbn [bind combine map]. unfold put_all. cbn [for_each el_of fst snd]. rewrite E. reflexivity.
  - exists (v :: repeat 0 (length info)). split; [cbn; rewrite repeat_length; reflexivity|]. cbn [bind combine map]. unfold put_all. cbn [for_each el_of fst snd]. rewrite E. reflexivity.
Qed.
Definition info_key (i : info_line) : flab * flab * Z := (il_bra i, il_ket i, il_J0 i).
Lemma combine_keys : forall info (vs : list R) (f : info_line -> R -> R), length vs = length info ->
  map key (map (fun iv => el_of (fst iv) (f (fst iv) (snd iv))) (combine info vs)) = map info_key info.
Proof. intros info. induction info as [|i info IH]; intros [|v vs] f Hl; try discriminate; [reflexivity|]. cbn. f_equal. apply IH. cbn in Hl. lia. Qed.
Lemma info_key_inj : forall i j, info_key i = info_key j -> i = j.
Proof. intros [b k J] [b' k' J']. cbn. unfold info_key. cbn. congruence. Qed.
Lemma NoDup_keys : forall info, NoDup info -> NoDup (map info_key info).
Proof.
  intros info H. induction H; cbn; constructor; [|assumption]. intros Hin. apply in_map_iff in Hin. destruct Hin as (j & Hj & Hin). apply info_key_inj in Hj. congruence.
Qed.
Lemma combine_located : forall al sp a b g0 Tz0 info (vs : list R) (f : info_line -> R -> R),
  Forall (fun i => located al sp a b g0 Tz0 (il_bra i) (il_ket i) (il_J0 i)) info ->
  Forall (fun e : element => let '(b', k, J0, v) := e in located al sp a b g0 Tz0 b' k J0) (map (fun iv => el_of (fst iv) (f (fst iv) (snd iv))) (combine info vs)).
Proof.
  intros al sp a b g0 Tz0 info vs f H. revert vs. induction H; intros [|v vs]; cbn; constructor; auto.
Qed.
Lemma in_combine_nth : forall A B (l : list A) (m : list B) i x y, nth_error l i = Some x -> nth_error m i = Some y -> In (x, y) (combine l m).
Proof.
  intros A B l. induction l as [|a l IH]; intros [|b m] [|i] x y Hx Hy; try discriminate; cbn in *.
  - injection Hx as ->. injection Hy as ->. left. reflexivity.
  - right. eapply IH; eassumption.
Qed.

Theorem multi_complete : forall al sp J0_max g0 Tz0 info vs rest, space_ok sp -> (-1 <= J0_max)%Z -> NoDup info ->
  Forall (fun i => located al sp 0 J0_max g0 Tz0 (il_bra i) (il_ket i) (il_J0 i)) info -> length vs = length info ->
  exists d, read_multi al sp J0_max g0 Tz0 info (length info) (map Some vs ++ rest) = Ok d
  /\ de_min d = 0%Z /\ de_max d = J0_max
  /\ (forall t i v P p Q q, nth_error info t = Some i -> nth_error vs t = Some v -> carries sp (il_bra i) P p -> carries sp (il_ket i) Q q ->
        density_entry d (il_J0 i) P p Q q = v * k_sqrt_4pi / sqrt (IZR (fl_2j (il_bra i) + 1)))
  /\ (forall J0 P p Q q, (0 <= J0 <= J0_max)%Z -> (forall i, In i info -> ~ (il_J0 i = J0 /\ carries sp (il_bra i) P p /\ carries sp (il_ket i) Q q)) ->
        density_entry d J0 P p Q q = 0).
Proof.
  intros al sp J0_max g0 Tz0 info vs rest Hs HJ Hn Hloc Hl. unfold read_multi. rewrite Nat.eqb_refl. cbn [cassert bind].
  destruct (init_ok al sp 0 J0_max g0 Tz0 ltac:(lia)) as (d0 & E0 & Hd0 & Hmin & Hmax & Hz). rewrite E0. cbn [bind]. rewrite loop_full by exact Hl.
  destruct (put_all_ok al sp g0 Tz0 (map (fun iv => el_of (fst iv) (scaled (fst iv) (snd iv))) (combine info vs)) d0 Hs Hd0) as (d & E & _ & Hmin' & Hmax' & Hval & Hrest).
  { rewrite Hmin, Hmax. apply combine_located. exact Hloc. }
  exists d. split; [exact E|]. split; [congruence|]. split; [congruence|]. split.
  - intros t i v P p Q q Hi Hv Hb Hk. assert (Hnd : NoDup (map key (map (fun iv => el_of (fst iv) (scaled (fst iv) (snd iv))) (combine info vs)))).
    { rewrite combine_keys by exact Hl. apply NoDup_keys. exact Hn. }
    apply (Hval Hnd (il_bra i) (il_ket i) (il_J0 i) (scaled i v)); [|exact Hb|exact Hk]. apply in_map_iff. exists (i, v). split; [reflexivity|]. eapply in_combine_nth; eassumption.
  - intros J0 P p Q q HJ0 Hno. rewrite Hrest; [apply Hz|rewrite Hmin, Hmax; exact HJ0|]. intros b k v Hin [Hb Hk]. apply in_map_iff in Hin.
    destruct Hin as ([i w] & Ei & Hiw). unfold el_of in Ei. cbn [fst snd] in Ei. injection Ei as <- <- <- _. apply in_combine_l in Hiw. apply (Hno i Hiw). auto.
Qed.
(** whatever is left of the data file, reading succeeds *)
Theorem multi_any_data : forall al sp J0_max g0 Tz0 info ws, space_ok sp -> (-1 <= J0_max)%Z ->
  Forall (fun i => located al sp 0 J0_max g0 Tz0 (il_bra i) (il_ket i) (il_J0 i)) info ->
  is_ok (read_multi al sp J0_max g0 Tz0 info (length info) ws).
Proof.
  intros al sp J0_max g0 Tz0 info ws Hs HJ Hloc. unfold read_multi. rewrite Nat.eqb_refl. cbn [cassert bind].
  destruct (init_ok al sp 0 J0_max g0 Tz0 ltac:(lia)) as (d0 & E0 & Hd0 & Hmin & Hmax & Hz). rewrite E0. cbn [bind].
  destruct (loop_any sp info 0 false ws d0) as (vs & Hl & Ev). rewrite Ev.
  destruct (put_all_ok al sp g0 Tz0 (map (fun iv => el_of (fst iv) (snd iv)) (combine info vs)) d0 Hs Hd0) as (d & E & _).
  { rewrite Hmin, Hmax. apply (combine_located al sp 0 J0_max g0 Tz0 info vs (fun _ v => v)). exact Hloc. }
  exists d. exact E.
Qed.

(** * Single-file densities *)
Definition el_1520 (orbs : list flab) (l : data_line) : option element :=
  match nth_error orbs (Z.to_nat (dl_a l - 1)), nth_error orbs (Z.to_nat (dl_b l - 1)) with
  | Some a, Some b => Some (a, b, dl_J0 l, dl_v l / hat (fl_2j a))
  | _, _ => None
  end.
Definition line_located (al : Z -> Z -> Z -> llabel -> llabel -> bool) (sp : lspace) (a b g0 Tz0 : Z) (orbs : list flab) (l : data_line) : Prop :=
  (1 <= dl_a l)%Z /\ (1 <= dl_b l)%Z /\ exists oa ob, nth_error orbs (Z.to_nat (dl_a l - 1)) = Some oa /\ nth_error orbs (Z.to_nat (dl_b l - 1)) = Some ob
  /\ located al sp a b g0 Tz0 oa ob (dl_J0 l).
Fixpoint els_1520 (orbs : list flab) (ls : list data_line) : list element :=
  match ls with [] => [] | l :: ls' => match el_1520 orbs l with Some e => e :: els_1520 orbs ls' | None => els_1520 orbs ls' end end.
Lemma loop_1520 : forall al sp a b g0 Tz0 orbs ls d, Forall (line_located al sp a b g0 Tz0 orbs) ls ->
  read_data_1520 sp orbs true ls d = put_all sp (els_1520 orbs ls) d.
Proof.
  intros al sp a b g0 Tz0 orbs ls. induction ls as [|l ls IH]; intros d H; [reflexivity|]. inversion H as [|? ? (H1 & H2 & oa & ob & Ea & Eb & _) Hls]; subst.
  cbn [read_data_1520 els_1520]. rewrite andb_false_r. unfold el_1520. rewrite Ea, Eb, (proj2 (Z.leb_le _ _) H1), (proj2 (Z.leb_le _ _) H2). cbn [bind].
  unfold put_all. cbn [for_each]. destruct (put_labelled _ _ _ _ _ _); try reflexivity. cbn [bind]. apply IH. exact Hls.
Qed.
Lemma els_located : forall al sp a b g0 Tz0 orbs ls, Forall (line_located al sp a b g0 Tz0 orbs) ls ->
  Forall (fun e : element => let '(b', k, J0, v) := e in located al sp a b g0 Tz0 b' k J0) (els_1520 orbs ls).
Proof.
  intros al sp a b g0 Tz0 orbs ls H. induction H as [|l ls (_ & _ & oa & ob & Ea & Eb & Hl) _ IH]; [constructor|]. cbn [els_1520]. unfold el_1520. rewrite Ea, Eb. constructor; assumption.
Qed.
Lemma els_in : forall orbs ls e, In e (els_1520 orbs ls) <-> exists l, In l ls /\ el_1520 orbs l = Some e.
Proof.
  intros orbs ls e. induction ls as [|l ls IH]; cbn; [firstorder|]. destruct (el_1520 orbs l) eqn:E; cbn; rewrite IH; split.
  - intros [<-|(l' & H & H')]; eauto.
  - intros (l' & [<-|H] & H'); [left; congruence|right; eauto].
  - intros (l' & H & H'); eauto.
  - intros (l' & [<-|H] & H'); [congruence|eauto].
Qed.
Lemma els_nodup : forall orbs ls, NoDup orbs -> NoDup (map (fun l => (dl_a l, dl_b l, dl_J0 l)) ls) -> (forall l, In l ls -> 1 <= dl_a l /\ 1 <= dl_b l)%Z ->
  NoDup (map key (els_1520 orbs ls)).
Proof.
  intros orbs ls Ho H. induction ls as [|l ls IH]; intros Hp; [constructor|]. cbn in H. inversion H; subst. cbn [els_1520].
  assert (IH' : NoDup (map key (els_1520 orbs ls))) by (apply IH; [assumption|intros; apply Hp; right; assumption]).
  destruct (el_1520 orbs l) as [e|] eqn:E; [|exact IH']. cbn. constructor; [|exact IH']. intros Hin. apply in_map_iff in Hin. destruct Hin as (e' & Hk & Hin).
  apply els_in in Hin. destruct Hin as (l' & Hl' & E'). apply H2. apply in_map_iff. exists l'. split; [|exact Hl'].
  unfold el_1520 in E, E'. destruct (nth_error orbs (Z.to_nat (dl_a l - 1))) as [a|] eqn:E1; [|discriminate]. destruct (nth_error orbs (Z.to_nat (dl_b l - 1))) as [b|] eqn:E2; [|discriminate].
  destruct (nth_error orbs (Z.to_nat (dl_a l' - 1))) as [a'|] eqn:E3; [|discriminate]. destruct (nth_error orbs (Z.to_nat (dl_b l' - 1))) as [b'|] eqn:E4; [|discriminate].
  injection E as <-. injection E' as <-. unfold key in Hk. cbn in Hk. injection Hk as -> -> HJ.
  assert (Hinj : forall i j o, nth_error orbs i = Some o -> nth_error orbs j = Some o -> i = j).
  { intros i j o Hi Hj. apply (proj1 (NoDup_nth_error orbs) Ho); [apply nth_error_Some; congruence|congruence]. }
  pose proof (Hinj _ _ _ E1 E3). pose proof (Hinj _ _ _ E2 E4). destruct (Hp l (or_introl eq_refl)). destruct (Hp l' (or_intror Hl')).
  assert (Ea : dl_a l' = dl_a l) by lia. assert (Eb : dl_b l' = dl_b l) by lia. rewrite HJ, Ea, Eb. reflexivity.
Qed.
Theorem single_complete : forall al sp J0_min J0_max g0 Tz0 orbs announced ls, space_ok sp -> (J0_min <= J0_max + 1)%Z -> NoDup orbs ->
  NoDup (map (fun l => (dl_a l, dl_b l, dl_J0 l)) ls) -> Forall (line_located al sp J0_min J0_max g0 Tz0 orbs) ls ->
  exists d, read_single al sp J0_min J0_max g0 Tz0 orbs announced true ls = Ok d
  /\ de_min d = J0_min /\ de_max d = J0_max
  /\ (forall l a b P p Q q, In l ls -> nth_error orbs (Z.to_nat (dl_a l - 1)) = Some a -> nth_error orbs (Z.to_nat (dl_b l - 1)) = Some b ->
        carries sp a P p -> carries sp b Q q -> density_entry d (dl_J0 l) P p Q q = dl_v l / sqrt (IZR (fl_2j a + 1)))
  /\ (forall J0 P p Q q, (J0_min <= J0 <= J0_max)%Z ->
        (forall l a b, In l ls -> nth_error orbs (Z.to_nat (dl_a l - 1)) = Some a -> nth_error orbs (Z.to_nat (dl_b l - 1)) = Some b ->
           ~ (dl_J0 l = J0 /\ carries sp a P p /\ carries sp b Q q)) -> density_entry d J0 P p Q q = 0).
Proof.
  intros al sp J0_min J0_max g0 Tz0 orbs announced ls Hs HJ Ho Hn Hloc. unfold read_single.
  destruct (init_ok al sp J0_min J0_max g0 Tz0 HJ) as (d0 & E0 & Hd0 & Hmin & Hmax & Hz). rewrite E0. cbn [bind]. rewrite (loop_1520 al sp J0_min J0_max g0 Tz0) by exact Hloc.
  destruct (put_all_ok al sp g0 Tz0 (els_1520 orbs ls) d0 Hs Hd0) as (d & E & _ & Hmin' & Hmax' & Hval & Hrest); [rewrite Hmin, Hmax; apply els_located; exact Hloc|].
  exists d. split; [exact E|]. split; [congruence|]. split; [congruence|]. split.
  - intros l a b P p Q q Hl Ea Eb Ha Hb. apply (Hval ltac:(apply els_nodup; [exact Ho|exact Hn|]; intros l' Hl'; rewrite Forall_forall in Hloc; destruct (Hloc l' Hl') as (X & Y & _); auto) a b (dl_J0 l) (dl_v l / hat (fl_2j a))); [|exact Ha|exact Hb].
    apply els_in. exists l. split; [exact Hl|]. unfold el_1520. rewrite Ea, Eb. reflexivity.
  - intros J0 P p Q q HJ0 Hno. rewrite Hrest; [apply Hz|rewrite Hmin, Hmax; exact HJ0|]. intros b k v Hin [Hb Hk]. apply els_in in Hin. destruct Hin as (l & Hl & El).
    unfold el_1520 in El. destruct (nth_error orbs (Z.to_nat (dl_a l - 1))) as [a'|] eqn:E1; [|discriminate]. destruct (nth_error orbs (Z.to_nat (dl_b l - 1))) as [b'|] eqn:E2; [|discriminate].
    injection El as <- <- <- _. apply (Hno l a' b' Hl E1 E2). auto.
Qed.
(** without a final newline the last line is not used *)
Theorem single_last_dropped : forall al sp J0_min J0_max g0 Tz0 orbs announced ls l,
  read_single al sp J0_min J0_max g0 Tz0 orbs announced false (ls ++ [l]) = read_single al sp J0_min J0_max g0 Tz0 orbs announced true ls.
Proof.
  intros. unfold read_single. destruct (init_storage al sp J0_min J0_max g0 Tz0) as [d| | |]; try reflexivity. cbn [bind]. revert d.
  induction ls as [|l' ls IH]; intros d; [reflexivity|]. cbn [app read_data_1520]. rewrite andb_false_r.
  replace (is_nil (ls ++ [l])) with false by (destruct ls; reflexivity). cbn [andb].
  destruct (if (1 <=? dl_a l')%Z then nth_error orbs (Z.to_nat (dl_a l' - 1)) else None); [|reflexivity]. cbn [bind].
  destruct (if (1 <=? dl_b l')%Z then nth_error orbs (Z.to_nat (dl_b l' - 1)) else None); [|reflexivity]. cbn [bind].
  destruct (put_labelled _ _ _ _ _ _); try reflexivity. cbn [bind]. apply IH.
Qed.
(** the announced numbers do not matter *)
Theorem single_announced : forall al sp J0_min J0_max g0 Tz0 orbs n n' nl ls,
  read_single al sp J0_min J0_max g0 Tz0 orbs n nl ls = read_single al sp J0_min J0_max g0 Tz0 orbs n' nl ls.
Proof. reflexivity. Qed.

(** * Observables *)
Lemma for_each_sum : forall A (l : list A) (body : A -> R -> outcome R) f v, (forall x v, In x l -> body x v = Ok (v + f x)) -> for_each l body v = Ok (v + lsum l f).
Proof.
  intros A l body f. induction l as [|x l IH]; intros v H; [cbn; f_equal; ring|]. cbn [for_each lsum]. rewrite H by (left; reflexivity). cbn [bind].
  rewrite IH by (intros; apply H; right; assumption). f_equal. ring.
Qed.
(** the selection rules and the availability of the density, in terms of twice the angular momenta *)
Definition observable_defined (w3j : Z -> Z -> Z -> Z -> Z -> Z -> R) (op : ob_operator) (od : ob_density) : Prop :=
  od_g0 od = op_g0 op /\ od_Tz0 od = op_Tz0 op
  /\ (Z.abs (od_2Jb od - 2 * op_J0 op) <= od_2Jk od <= od_2Jb od + 2 * op_J0 op)%Z /\ Z.even (od_2Jb od + 2 * op_J0 op + od_2Jk od) = true
  /\ / 10 ^ 8 <= Rabs (w3j (od_2Jb od) (2 * op_J0 op) (od_2Jk od) (- od_2Mb od) (od_2Mb od - od_2Mk od) (od_2Mk od))%Z
  /\ (de_min (od_dens od) <= op_J0 op <= de_max (od_dens od))%Z.
Theorem observable_ok : forall w3j al sp op od, Z.even (od_2Mb od - od_2Mk od) = true ->
  op_sectors op = mk_lsectors al sp sp (op_J0 op) (op_g0 op) (op_Tz0 op) -> op_ok sp sp (op_sectors op) (op_blocks op) ->
  density_ok al sp (od_g0 od) (od_Tz0 od) (od_dens od) ->
  (observable_defined w3j op od ->
    observable w3j sp op od = Ok (Num (ssum sp (fun P p => ssum sp (fun Q q =>
      match nth_error sp P with Some x => IZR (ll_2j (fst x) + 1) | None => 0 end
      * entry (op_sectors op) (op_blocks op) P p Q q * density_entry (od_dens od) (op_J0 op) P p Q q)) / sqrt (IZR (2 * op_J0 op + 1)))))
  /\ (~ observable_defined w3j op od -> observable w3j sp op od = Ok NaN).
Proof.
  intros w3j al sp op od HM Hsec Hop Hd. unfold observable. rewrite HM. cbn [cassert bind]. unfold observable_defined.
  destruct (Z.eqb_spec (od_g0 od) (op_g0 op)) as [Hg|Hg]; cbn [negb]; [|split; [tauto|reflexivity]].
  destruct (Z.eqb_spec (od_Tz0 od) (op_Tz0 op)) as [HT|HT]; cbn [negb]; [|split; [tauto|reflexivity]].
  destruct (allowed_triangle2 (od_2Jb od) (2 * op_J0 op) (od_2Jk od)) eqn:Etri; cbn [negb].
  2:{ split; [|reflexivity]. intros (_ & _ & Ht & He & _). exfalso. unfold allowed_triangle2 in Etri. rewrite He, andb_true_r in Etri.
      apply andb_false_iff in Etri. rewrite !Z.leb_gt in Etri. lia. }
  assert (Ht : (Z.abs (od_2Jb od - 2 * op_J0 op) <= od_2Jk od <= od_2Jb od + 2 * op_J0 op)%Z /\ Z.even (od_2Jb od + 2 * op_J0 op + od_2Jk od) = true).
  { unfold allowed_triangle2 in Etri. rewrite !andb_true_iff, !Z.leb_le in Etri. tauto. }
  destruct Ht as [Ht He].
  destruct (Rlt_dec (Rabs _) (/ 10 ^ 8)) as [Hw|Hw]; [split; [intros (_ & _ & _ & _ & H & _); lra|reflexivity]|].
  destruct ((op_J0 op <? de_min (od_dens od))%Z || (de_max (od_dens od) <? op_J0 op)%Z) eqn:Er.
  { split; [|reflexivity]. intros (_ & _ & _ & _ & _ & Hr). exfalso. apply orb_true_iff in Er. rewrite !Z.ltb_lt in Er. lia. }
  apply orb_false_iff in Er. rewrite !Z.ltb_ge in Er. destruct Er as [Er1 Er2]. split; [|intros Hn; exfalso; apply Hn; repeat split; try assumption; try lia; lra].
  intros _. unfold multipole_index. rewrite (proj2 (Z.leb_le _ _) Er1), (proj2 (Z.leb_le _ _) Er2). cbn [andb cassert bind].
  pose proof (density_sectors _ _ _ _ _ _ Hd (conj Er1 Er2)) as Hss. rewrite Hg, HT, <- Hsec in Hss. destruct Hd as [_ Hd2].
  destruct (Forall2_nth_r _ _ _ _ _ _ _ Hd2 Hss) as (bs & Ebs & Hbs). rewrite Ebs. cbn [get bind].
  set (F := fun P p Q q => match nth_error sp P with Some x => IZR (ll_2j (fst x) + 1) | None => 0 end
      * entry (op_sectors op) (op_blocks op) P p Q q * entry (op_sectors op) bs P p Q q).
  rewrite (for_each_sum _ _ _ (fun ab => rsum (sub_dim sp (fst ab)) (fun p => rsum (sub_dim sp (snd ab)) (fun q => F (fst ab) p (snd ab) q)))).
  - cbn [bind]. f_equal. f_equal. unfold hat. f_equal. rewrite Rplus_0_l. rewrite lsum_prod. unfold ssum, rsum at 1. apply lsum_ext. intros P HP.
    transitivity (rsum (length sp) (fun Q => rsum (sub_dim sp P) (fun p => rsum (sub_dim sp Q) (fun q => F P p Q q)))); [reflexivity|].
    rewrite rsum_swap. apply rsum_ext. intros p Hp. apply rsum_ext. intros Q HQ. apply rsum_ext. intros q Hq. unfold F, density_entry. rewrite Hss, Ebs. reflexivity.
  - intros [P Q] v Hin. cbn [fst snd]. apply in_prod_iff in Hin. rewrite !in_seq in Hin. destruct Hin as [HP HQ].
    destruct (look_up_sector (op_sectors op) P Q) as [x|] eqn:El.
    + destruct (nth_error sp P) as [a|] eqn:Ea; [|apply nth_error_None in Ea; lia]. destruct (nth_error sp Q) as [b|] eqn:Eb; [|apply nth_error_None in Eb; lia]. cbn [get bind].
      apply look_up_some in El. pose proof Hop as [Hnd Hf]. destruct (Forall2_nth_r _ _ _ _ _ _ _ Hf El) as (o & Eo & _ & _ & Hro & Hco).
      destruct Hbs as [_ Hfb]. destruct (Forall2_nth_r _ _ _ _ _ _ _ Hfb El) as (r & Er & _ & _ & Hrr & Hcr). cbn [fst snd] in *. rewrite Eo, Er. cbn [get bind].
      assert (DP : sub_dim sp P = length (snd a)) by (unfold sub_dim; rewrite Ea; destruct a; reflexivity).
      assert (DQ : sub_dim sp Q = length (snd b)) by (unfold sub_dim; rewrite Eb; destruct b; reflexivity).
      rewrite (for_each_sum _ _ _ (fun ij => F P (fst ij) Q (snd ij))).
      * rewrite lsum_prod, DP, DQ. reflexivity.
      * intros [i j] w Hij. apply in_prod_iff in Hij. rewrite !in_seq in Hij. cbn [fst snd]. unfold block_at. rewrite Hro, Hco, Hrr, Hcr, DP, DQ.
        rewrite (proj2 (Nat.ltb_lt i _)), (proj2 (Nat.ltb_lt j _)) by lia. cbn [andb cassert bind]. f_equal. f_equal. unfold F. rewrite Ea.
        rewrite (entry_found _ _ _ _ _ _ _ _ Hnd El Eo), (entry_found _ _ _ _ _ _ _ _ Hnd El Er). reflexivity.
    + apply look_up_none in El. f_equal. rewrite rsum_0; [ring|]. intros p Hp. apply rsum_0. intros q Hq. unfold F. rewrite (entry_absent _ _ _ _ _ _ El). ring.
Qed.
