(** Proofs for C44, C45, C66-C70. *)
From Coq Require Import String List ZArith Reals Lra Lia Bool Permutation.
From Verif Require Import Base BaseLemmas H2Model MapModel MapSpec MapProof MapProof2 MapFinal RMat XformModel SepModel
  OscModel BlockModel BlockProof MixModel MixSpec.
Import ListNotations.
Open Scope R_scope.

Lemma bind_inv : forall A B (m : outcome A) (k : A -> outcome B) y, bind m k = Ok y -> exists x, m = Ok x /\ k x = Ok y.
Proof. intros A B [x| | |] k y H; cbn in H; try discriminate. eauto. Qed.

(** * the counterpart of a sector *)
Lemma counterpart_some : forall ix ts i, index_ok ix -> counterpart ix ts = Some i ->
  exists s, nth_error (ti_sectors ix) i = Some s /\ same_sector s ts /\ sector_of (ti_space ix) s.
Proof.
  intros ix ts i [Hsp Hsec Honce] H. unfold counterpart in H.
  destruct (lookup labels_eqb _ (sub_labels (s_bra ts))) as [b|] eqn:Eb; [|discriminate].
  destruct (lookup labels_eqb _ (sub_labels (s_ket ts))) as [k|] eqn:Ek; [|discriminate].
  apply (lookup_some _ labels_eqb_ok) in Eb, Ek. apply (lookup_some _ pair_eqb_ok) in H.
  rewrite nth_error_map in H. destruct (nth_error (ti_sectors ix) i) as [s|] eqn:Es; [|discriminate].
  cbn in H. injection H as Hb Hk. exists s. split; [reflexivity|].
  assert (So := proj1 (Forall_forall _ _) Hsec s (nth_error_In _ _ Es)). split; [|exact So].
  destruct So as [Sb Sk]. rewrite nth_error_map in Eb, Ek. rewrite <- Hb, Sb in Eb. rewrite <- Hk, Sk in Ek.
  cbn in Eb, Ek. split; congruence.
Qed.
Lemma counterpart_found : forall ix ts i s, index_ok ix -> nth_error (ti_sectors ix) i = Some s -> same_sector s ts ->
  counterpart ix ts = Some i.
Proof.
  intros ix ts i s [Hsp Hsec Honce] Hi [Lb Lk]. unfold counterpart.
  destruct (proj1 (Forall_forall _ _) Hsec s (nth_error_In _ _ Hi)) as [Sb Sk].
  assert (Hn := so_labels _ _ Hsp).
  rewrite (lookup_nth _ labels_eqb_ok _ _ (s_bi s) Hn) by (rewrite nth_error_map, Sb; cbn; congruence).
  rewrite (lookup_nth _ labels_eqb_ok _ _ (s_ki s) Hn) by (rewrite nth_error_map, Sk; cbn; congruence).
  apply (lookup_nth _ pair_eqb_ok); [exact Honce|]. rewrite nth_error_map, Hi. reflexivity.
Qed.
Lemma counterpart_none : forall ix ts, index_ok ix -> counterpart ix ts = None ->
  forall s, In s (ti_sectors ix) -> ~ same_sector s ts.
Proof.
  intros ix ts Hix H s Hs Hss. apply In_nth_error in Hs. destruct Hs as [i Hi].
  rewrite (counterpart_found ix ts i s Hix Hi Hss) in H. discriminate.
Qed.

(** * input channels *)
Lemma state_dec : forall src tgt ssp tsp s t, space_ok src ssp -> space_ok tgt tsp -> In s ssp -> In t tsp -> sub_labels s = sub_labels t ->
  forall j, (exists i p, same_state src s i tgt t j p) \/ (forall i p, ~ same_state src s i tgt t j p).
Proof.
  intros src tgt ssp tsp s t Hs Ht Is It Hl j.
  assert (Hk := fun i => entries_spec src tgt ssp tsp Hs Ht s t i Is It Hl).
  assert (G : forall n, (n <= length (ss_states s))%nat ->
     (exists i p, same_state src s i tgt t j p) \/ (forall i p, (i < n)%nat -> ~ same_state src s i tgt t j p)).
  { induction n as [|n IH]; intros Hn; [right; intros; lia|]. destruct (IH ltac:(lia)) as [Hyes|Hno]; [left; exact Hyes|].
    destruct (Hk n ltac:(lia)) as (o & ph & _ & Hiff). destruct o as [j'|].
    - destruct (Nat.eq_dec j' j) as [->|Hne].
      + left. exists n, (i32 ph). apply Hiff. auto.
      + right. intros i p Hi Hss. assert (i = n \/ (i < n)%nat) as [->|Hlt] by lia; [|eapply Hno; eauto].
        apply Hiff in Hss. destruct Hss as [Heq _]. injection Heq. congruence.
    - right. intros i p Hi Hss. assert (i = n \/ (i < n)%nat) as [->|Hlt] by lia; [|eapply Hno; eauto].
      apply Hiff in Hss. destruct Hss as [Heq _]. discriminate. }
  destruct (G _ (le_n _)) as [Hyes|Hno]; [left; exact Hyes|right].
  intros i p Hss. apply (Hno i p (proj1 (same_state_range _ _ _ _ _ _ _ Hss)) Hss).
Qed.
Lemma read_full_stored : forall f i s m, if_read f i = Ok m ->
  exists m', read_full f i s = Ok m' /\ rows m' = rows m /\ cols m' = cols m /\ forall b k, at_ m' b k = stored s m b k.
Proof.
  intros f i s m H. unfold read_full, stored, is_diag. rewrite H. cbn [bind].
  destruct (Nat.eqb (s_bi s) (s_ki s)).
  - exists (complete_lower m). repeat split.
  - exists m. repeat split.
Qed.

Lemma input_channel : forall f tgt ts, file_ok f -> index_ok tgt -> sector_of (ti_space tgt) ts ->
  exists mp, make_mapping (ti_orb (if_ix f)) (ti_space (if_ix f)) (ti_orb tgt) (ti_space tgt) = Ok mp
  /\ exists r, populate_input f mp ts = Ok r
  /\ (forall x, r = Some x -> dims x ts)
  /\ forall a b, (a < length (ss_states (s_bra ts)))%nat -> (b < length (ss_states (s_ket ts)))%nat ->
     labelled f tgt ts a b (match r with Some x => at_ x a b | None => 0 end).
Proof.
  intros f tgt ts Hf Ht Hts. destruct Hf as [Hfi Hfr].
  destruct (remap_spec (ti_orb (if_ix f)) (ti_orb tgt) _ _ (xk_space _ Hfi) (xk_space _ Ht)) as (mp & Emp & R).
  exists mp. split; [exact Emp|]. unfold populate_input.
  destruct (counterpart (if_ix f) ts) as [i|] eqn:Ec.
  - destruct (counterpart_some _ _ _ Hfi Ec) as (s & Hs & Hss & Hso). rewrite Hs. cbn [get bind].
    destruct (Hfr i s Hs) as (m & Em & Dm).
    destruct (read_full_stored f i s m Em) as (m' & Em' & Hr & Hc & Hat). rewrite Em'. cbn [bind].
    assert (Dm' : dims m' s) by (destruct Dm; split; congruence).
    destruct (R _ 0 rscale s ts m' Hso Hts Hss Dm') as (r & Er & Dr & Rin & Rout). rewrite Er. cbn [bind].
    exists (Some r). split; [reflexivity|]. split; [intros x Hx; injection Hx as <-; exact Dr|].
    intros a b Ha Hb.
    destruct (state_dec _ _ _ _ (s_bra s) (s_bra ts) (xk_space _ Hfi) (xk_space _ Ht) (nth_error_In _ _ (proj1 Hso)) (nth_error_In _ _ (proj1 Hts)) (proj1 Hss) a)
      as [(sb & pb & Sb)|Nb].
    + destruct (state_dec _ _ _ _ (s_ket s) (s_ket ts) (xk_space _ Hfi) (xk_space _ Ht) (nth_error_In _ _ (proj2 Hso)) (nth_error_In _ _ (proj2 Hts)) (proj2 Hss) b)
        as [(sk & pk & Sk)|Nk].
      * rewrite (Rin sb sk a b pb pk Sb Sk). unfold rscale. rewrite Hat.
        eapply lab_stored; eassumption.
      * rewrite (Rout a b). { eapply lab_no_state; [exact (nth_error_In _ _ Hs)|exact Hss|].
          right. exact Nk. }
        right. exact Nk.
    + rewrite (Rout a b). { eapply lab_no_state; [exact (nth_error_In _ _ Hs)|exact Hss|].
        left. exact Nb. }
      left. exact Nb.
  - exists None. split; [reflexivity|]. split; [discriminate|].
    intros a b _ _. apply lab_no_sector. apply counterpart_none; assumption.
Qed.

(** * targets *)
Section Mixer.
Variable F1 F2 : factor1.
Variable F12 : factor12.
Variable tol : R.
Notation populate := (populate F1 F2 F12).
Notation populate_all := (populate_all F1 F2 F12).
Notation run_sector := (run_sector F1 F2 F12 tol).
Notation run := (run F1 F2 F12 tol).

Lemma chop_chopped : forall x, chopped tol x (chop tol x).
Proof. intros x. unfold chop. destruct (Rlt_dec (Rabs x) tol); split; intros; lra. Qed.

Definition el (sm : smap) (id : string) (a b : nat) : R := match sm id with Some x => at_ x a b | None => 0 end.
Lemma accumulate : forall (sm : smap) cs m r,
  for_each cs (fun ic m => match sm (fst ic) with
      | Some x => madd_to m (Mat (rows x) (cols x) (fun i j => snd ic * at_ x i j)) | None => Ok m end) m = Ok r ->
  rows r = rows m /\ cols r = cols m
  /\ forall a b, at_ r a b = at_ m a b + combination cs (fun id => el sm id a b).
Proof.
  intros sm cs. induction cs as [|[id c] cs IH]; cbn [for_each]; intros m r H.
  - injection H as <-. repeat split. intros. unfold combination. cbn. ring.
  - cbn [fst snd] in H. destruct (sm id) as [x|] eqn:E.
    + unfold madd_to in H. cbn [rows cols] in H. unfold cassert in H.
      destruct (Nat.eqb (rows m) (rows x) && Nat.eqb (cols m) (cols x))%bool; cbn [bind] in H; [|discriminate].
      destruct (IH _ _ H) as (Hr & Hc & Hat). cbn [rows cols at_] in *. split; [exact Hr|]. split; [exact Hc|].
      intros a b. rewrite Hat. unfold combination. cbn [lsum fst snd]. unfold el at 2. rewrite E. ring.
    + destruct (IH _ _ H) as (Hr & Hc & Hat). split; [exact Hr|]. split; [exact Hc|].
      intros a b. rewrite Hat. unfold combination. cbn [lsum fst snd]. unfold el at 2. rewrite E. ring.
Qed.
Lemma accumulate_ok : forall (sm : smap) cs m,
  (forall id x, sm id = Some x -> rows x = rows m /\ cols x = cols m) ->
  exists r, for_each cs (fun ic m => match sm (fst ic) with
      | Some x => madd_to m (Mat (rows x) (cols x) (fun i j => snd ic * at_ x i j)) | None => Ok m end) m = Ok r.
Proof.
  intros sm cs. induction cs as [|[id c] cs IH]; cbn [for_each]; intros m H; [eauto|]. cbn [fst snd].
  destruct (sm id) as [x|] eqn:E; [|apply IH; assumption].
  destruct (H id x E) as [Hr Hc]. unfold madd_to. cbn [rows cols]. rewrite Hr, Hc, !Nat.eqb_refl. cbn [andb cassert bind].
  apply IH. intros id' x' E'. cbn [rows cols]. exact (H id' x' E').
Qed.

Lemma generate_inv : forall sm ts cs r, generate tol sm ts cs = Ok r ->
  dims r ts /\ forall a b, chopped tol (combination cs (fun id => el sm id a b)) (at_ r a b).
Proof.
  intros sm ts cs r H. unfold generate in H. apply bind_inv in H. destruct H as (m & Hm & H). injection H as <-.
  apply accumulate in Hm. destruct Hm as (Hr & Hc & Hat). cbn in Hr, Hc. split; [split; assumption|].
  intros a b. cbn [at_]. rewrite Hat. cbn [mzero at_]. rewrite Rplus_0_l. apply chop_chopped.
Qed.
Lemma generate_ok : forall sm ts cs, (forall id x, sm id = Some x -> dims x ts) -> exists r, generate tol sm ts cs = Ok r.
Proof.
  intros sm ts cs H. unfold generate.
  destruct (accumulate_ok sm cs (mzero 0 (ss_size (s_bra ts)) (ss_size (s_ket ts)))) as (m & ->).
  { intros id x E. destruct (H id x E) as [? ?]. split; assumption. }
  cbn [bind]. eauto.
Qed.
Lemma generate_ext : forall sm sm' ts cs, (forall id, sm id = sm' id) -> generate tol sm ts cs = generate tol sm' ts cs.
Proof.
  intros sm sm' ts cs H. unfold generate. f_equal. generalize (mzero 0 (ss_size (s_bra ts)) (ss_size (s_ket ts))).
  induction cs as [|[id c] cs IH]; intros m; [reflexivity|]. cbn [for_each fst snd]. rewrite H.
  destruct (sm' id); [|apply IH]. destruct (madd_to _ _); cbn [bind]; [apply IH|reflexivity..].
Qed.
Lemma generate_unknown : forall sm ts cs1 cs2 id c, sm id = None ->
  generate tol sm ts (cs1 ++ (id, c) :: cs2) = generate tol sm ts (cs1 ++ cs2).
Proof.
  intros sm ts cs1 cs2 id c H. unfold generate. f_equal. generalize (mzero 0 (ss_size (s_bra ts)) (ss_size (s_ket ts))).
  induction cs1 as [|[id' c'] cs1 IH]; intros m; cbn [app for_each fst snd].
  - rewrite H. reflexivity.
  - destruct (sm id'); [|apply IH]. destruct (madd_to _ _); cbn [bind]; [apply IH|reflexivity..].
Qed.

(** * the map of source matrices *)
Lemma populate_all_spec : forall rp tgt ts cs sm r, NoDup (map fst cs) -> populate_all rp tgt ts cs sm = Ok r ->
  (forall c, In c cs -> exists v, populate rp tgt ts c = Ok v /\ r (fst c) = match v with Some x => Some x | None => sm (fst c) end)
  /\ (forall id, ~ In id (map fst cs) -> r id = sm id).
Proof.
  intros rp tgt ts cs. induction cs as [|c cs IH]; intros sm r Hn H.
  - injection H as <-. split; [intros c []|reflexivity].
  - cbn [MixModel.populate_all] in H. apply bind_inv in H. destruct H as (v & Hv & H). inversion Hn as [|? ? Hnin Hn']; subst.
    destruct (IH _ _ Hn' H) as [I1 I2]. split.
    + intros c' [<-|Hin].
      * exists v. split; [exact Hv|]. rewrite I2 by assumption. destruct v as [x|]; [|reflexivity].
        unfold sput. rewrite String.eqb_refl. reflexivity.
      * destruct (I1 c' Hin) as (v' & Hv' & E). exists v'. split; [exact Hv'|]. rewrite E. destruct v' as [x'|]; [reflexivity|].
        destruct v as [x|]; [|reflexivity]. unfold sput. destruct (String.eqb (fst c') (fst c)) eqn:E'; [|reflexivity].
        apply String.eqb_eq in E'. elim Hnin. rewrite <- E'. apply in_map. exact Hin.
    + intros id Hid. cbn in Hid. rewrite I2 by tauto. destruct v as [x|]; [|reflexivity].
      unfold sput. destruct (String.eqb id (fst c)) eqn:E'; [|reflexivity]. apply String.eqb_eq in E'. subst. tauto.
Qed.
Lemma populate_all_ok : forall rp tgt ts cs sm, (forall c, In c cs -> is_ok (populate rp tgt ts c)) ->
  exists r, populate_all rp tgt ts cs sm = Ok r.
Proof.
  intros rp tgt ts cs. induction cs as [|c cs IH]; intros sm H; [cbn; eauto|]. cbn [MixModel.populate_all].
  destruct (H c (or_introl eq_refl)) as [v ->]. cbn [bind]. apply IH. intros; apply H; right; assumption.
Qed.

Lemma nth_none_ge : forall A (l : list A) i, nth_error l i = None -> (length l <= i)%nat.
Proof. intros A l i. apply nth_error_None. Qed.

Lemma map_blocks_nth : forall A B (f : A -> outcome B) l bs, map_blocks f l = Ok bs ->
  length bs = length l /\ forall i x y, nth_error l i = Some x -> nth_error bs i = Some y -> f x = Ok y.
Proof.
  intros A B f l. induction l as [|x l IH]; intros bs H; cbn in H.
  - injection H as <-. split; [reflexivity|]. intros [|i] x y H; discriminate.
  - apply bind_inv in H. destruct H as (m & Hm & H). apply bind_inv in H. destruct H as (r & Hr & H). injection H as <-.
    destruct (IH _ Hr) as [IL IN]. split; [cbn; congruence|].
    intros [|i] x' y Hx Hy; cbn in Hx, Hy; [congruence|eauto].
Qed.

Lemma run_spec : forall rp tgt cs targets out, NoDup (map fst cs) -> run rp tgt cs targets = Ok out ->
  length out = length (ti_sectors tgt)
  /\ forall i ts row, nth_error (ti_sectors tgt) i = Some ts -> nth_error out i = Some row ->
     length row = length targets
  /\ forall k coefficients m, nth_error targets k = Some coefficients -> nth_error row k = Some m ->
     dims m ts /\ forall a b, (a < rows m)%nat -> (b < cols m)%nat ->
     exists v, produced (populate rp tgt ts) cs a b v /\ chopped tol (combination coefficients v) (at_ m a b).
Proof.
  intros rp tgt cs targets out Hn H. unfold MixModel.run in H. destruct (map_blocks_nth _ _ _ _ _ H) as [HL HN].
  split; [exact HL|]. intros i ts row Hi Hrow. specialize (HN i ts row Hi Hrow). unfold MixModel.run_sector in HN.
  apply bind_inv in HN. destruct HN as (sm & Hsm & HN). destruct (map_blocks_nth _ _ _ _ _ HN) as [RL RN].
  split; [exact RL|]. intros k co m Hk Hm. specialize (RN k co m Hk Hm).
  destruct (generate_inv _ _ _ _ RN) as [D V]. split; [exact D|]. intros a b _ _.
  exists (fun id => el sm id a b). split; [|apply V].
  destruct (populate_all_spec _ _ _ _ _ _ Hn Hsm) as [P1 P2]. split; [|split].
  - intros c x Hc Hx. destruct (P1 c Hc) as (v & Hv & E). rewrite Hx in Hv. injection Hv as <-. unfold el. rewrite E. reflexivity.
  - intros c Hc Hx. destruct (P1 c Hc) as (v & Hv & E). rewrite Hx in Hv. injection Hv as <-. unfold el. rewrite E. reflexivity.
  - intros id Hid. unfold el. rewrite (P2 id Hid). reflexivity.
Qed.

Lemma map_blocks_total : forall A B (f : A -> outcome B) l, (forall x, In x l -> is_ok (f x)) -> is_ok (map_blocks f l).
Proof. intros A B f l H. destruct (map_blocks_ok A B f l H) as (bs & E & _). exists bs. exact E. Qed.
Lemma run_ok : forall rp tgt cs targets, NoDup (map fst cs) ->
  (forall ts c, In ts (ti_sectors tgt) -> In c cs -> exists v, populate rp tgt ts c = Ok v /\ forall x, v = Some x -> dims x ts) ->
  is_ok (run rp tgt cs targets).
Proof.
  intros rp tgt cs targets Hn H. unfold MixModel.run. apply map_blocks_total. intros ts Hts. unfold MixModel.run_sector.
  destruct (populate_all_ok rp tgt ts cs (fun _ => None)) as (sm & Hsm).
  { intros c Hc. destruct (H ts c Hts Hc) as (v & Hv & _). exists v. exact Hv. }
  rewrite Hsm. cbn [bind]. apply map_blocks_total. intros co _. apply generate_ok. intros id x E.
  destruct (populate_all_spec _ _ _ _ _ _ Hn Hsm) as [P1 P2].
  destruct (in_dec string_dec id (map fst cs)) as [Hin|Hnin].
  - apply in_map_iff in Hin. destruct Hin as (c & <- & Hc). destruct (P1 c Hc) as (v & Hv & E').
    destruct (H ts c Hts Hc) as (v' & Hv' & D). rewrite Hv in Hv'. injection Hv' as <-. rewrite E in E'.
    destruct v as [y|]; [|discriminate]. injection E' as ->. apply D. reflexivity.
  - rewrite (P2 id Hnin) in E. discriminate.
Qed.

Lemma map_blocks_ext : forall A B (f g : A -> outcome B) l r, map_blocks f l = Ok r ->
  (forall x y, In x l -> f x = Ok y -> g x = Ok y) -> map_blocks g l = Ok r.
Proof.
  intros A B f g l. induction l as [|x l IH]; intros r H Hfg; cbn in *; [exact H|].
  apply bind_inv in H. destruct H as (m & Hm & H). apply bind_inv in H. destruct H as (r' & Hr & H). injection H as <-.
  rewrite (Hfg x m (or_introl eq_refl) Hm). cbn [bind]. rewrite (IH r' Hr) by auto. reflexivity.
Qed.

Lemma run_order : forall rp tgt cs cs' targets out, NoDup (map fst cs) -> Permutation cs cs' ->
  run rp tgt cs targets = Ok out -> run rp tgt cs' targets = Ok out.
Proof.
  intros rp tgt cs cs' targets out Hn Hp H. unfold MixModel.run in *.
  refine (map_blocks_ext _ _ _ _ _ _ H _). intros ts row _ Hrow. unfold MixModel.run_sector in *.
  apply bind_inv in Hrow. destruct Hrow as (sm & Hsm & Hrow).
  assert (Hn' : NoDup (map fst cs')) by (eapply Permutation_NoDup; [apply Permutation_map; exact Hp|exact Hn]).
  destruct (populate_all_spec _ _ _ _ _ _ Hn Hsm) as [P1 P2].
  destruct (populate_all_ok rp tgt ts cs' (fun _ => None)) as (sm' & Hsm').
  { intros c Hc. destruct (P1 c) as (v & Hv & _); [eapply Permutation_in; [apply Permutation_sym, Hp|exact Hc]|]. exists v. exact Hv. }
  destruct (populate_all_spec _ _ _ _ _ _ Hn' Hsm') as [Q1 Q2].
  rewrite Hsm'. cbn [bind]. refine (map_blocks_ext _ _ _ _ _ _ Hrow _). intros co m _ Hm. rewrite <- Hm.
  apply generate_ext. intros id. destruct (in_dec string_dec id (map fst cs)) as [Hin|Hnin].
  - apply in_map_iff in Hin. destruct Hin as (c & <- & Hc). destruct (P1 c Hc) as (v & Hv & E).
    destruct (Q1 c) as (v' & Hv' & E'); [eapply Permutation_in; eassumption|]. rewrite Hv in Hv'. injection Hv' as <-. congruence.
  - rewrite (P2 id Hnin), (Q2 id); [reflexivity|]. intros Hin. apply Hnin.
    eapply Permutation_in; [apply Permutation_map, Permutation_sym, Hp|exact Hin].
Qed.

Lemma map_blocks_forall2 : forall A B (P : B -> B -> Prop) (f : A -> outcome B) l l' r, Forall2 (fun x x' => forall y, f x = Ok y ->
  exists y', f x' = Ok y' /\ P y y') l l' -> map_blocks f l = Ok r -> exists r', map_blocks f l' = Ok r' /\ Forall2 P r r'.
Proof.
  intros A B P f l l' r F. revert r. induction F as [|x x' l l' Hx F IH]; intros r H; cbn in *.
  - injection H as <-. exists []. split; [reflexivity|constructor].
  - apply bind_inv in H. destruct H as (m & Hm & H). apply bind_inv in H. destruct H as (r0 & Hr & H). injection H as <-.
    destruct (Hx m Hm) as (m' & Hm' & Pm). destruct (IH r0 Hr) as (r' & Hr' & Pr). rewrite Hm'. cbn [bind]. rewrite Hr'. cbn [bind].
    eexists. split; [reflexivity|]. constructor; assumption.
Qed.

Lemma accumulate_perm : forall (sm : smap) cs cs' m r, Permutation cs cs' ->
  for_each cs (fun ic m => match sm (fst ic) with
      | Some x => madd_to m (Mat (rows x) (cols x) (fun i j => snd ic * at_ x i j)) | None => Ok m end) m = Ok r ->
  forall m', rows m' = rows m -> cols m' = cols m -> exists r',
  for_each cs' (fun ic m => match sm (fst ic) with
      | Some x => madd_to m (Mat (rows x) (cols x) (fun i j => snd ic * at_ x i j)) | None => Ok m end) m' = Ok r'.
Proof.
  intros sm cs cs' m r Hp H m' Hr Hc.
  assert (D : forall c x, In c cs -> sm (fst c) = Some x -> rows x = rows m /\ cols x = cols m).
  { clear Hp m' Hr Hc. revert m r H. induction cs as [|[id c] cs IH]; intros m r H c' x Hin E; [destruct Hin|].
    cbn [for_each fst snd] in H. destruct (sm id) as [y|] eqn:E0.
    - unfold madd_to in H. cbn [rows cols] in H. unfold cassert in H.
      destruct (Nat.eqb (rows m) (rows y) && Nat.eqb (cols m) (cols y))%bool eqn:Ed; cbn [bind] in H; [|discriminate].
      apply andb_true_iff in Ed. destruct Ed as [E1 E2]. apply Nat.eqb_eq in E1, E2. destruct Hin as [<-|Hin].
      + cbn [fst] in E. split; congruence.
      + destruct (IH _ _ H c' x Hin E). cbn [rows cols] in *. split; congruence.
    - destruct Hin as [<-|Hin]; [cbn [fst] in E; congruence|]. eapply IH; eassumption. }
  assert (D' : forall c x, In c cs' -> sm (fst c) = Some x -> rows x = rows m' /\ cols x = cols m').
  { intros c x Hin E. rewrite Hr, Hc. apply (D c x); [|exact E]. eapply Permutation_in; [apply Permutation_sym, Hp|exact Hin]. }
  clear - D'. revert m' D'. induction cs' as [|[id c] cs IH]; intros m' D; cbn [for_each fst snd]; [eauto|].
  destruct (sm id) as [y|] eqn:E0; [|apply IH; intros; eapply D; [right|]; eassumption].
  destruct (D (id, c) y (or_introl eq_refl) E0) as [Hy Hy']. unfold madd_to. cbn [rows cols].
  rewrite Hy, Hy', !Nat.eqb_refl. cbn [andb cassert bind]. apply IH. intros c' x Hin E. cbn [rows cols].
  apply (D c' x); [right; exact Hin|exact E].
Qed.
Lemma generate_perm : forall sm ts cs cs' r, Permutation cs cs' -> generate tol sm ts cs = Ok r ->
  exists r', generate tol sm ts cs' = Ok r' /\ same_matrix r r'.
Proof.
  intros sm ts cs cs' r Hp H. unfold generate in *. apply bind_inv in H. destruct H as (m & Hm & H). injection H as <-.
  destruct (accumulate_perm sm cs cs' _ _ Hp Hm _ eq_refl eq_refl) as (m' & Hm'). rewrite Hm'. cbn [bind].
  eexists. split; [reflexivity|]. apply accumulate in Hm, Hm'. destruct Hm as (R1 & C1 & A1), Hm' as (R2 & C2 & A2).
  split; [cbn; congruence|]. split; [cbn; congruence|]. intros i j _ _. cbn [at_]. f_equal. rewrite A1, A2.
  f_equal. unfold combination. apply lsum_perm. exact Hp.
Qed.
Lemma run_coefficients : forall rp tgt cs targets targets' out, Forall2 (@Permutation (string * R)) targets targets' ->
  run rp tgt cs targets = Ok out ->
  exists out', run rp tgt cs targets' = Ok out' /\ Forall2 (Forall2 same_matrix) out out'.
Proof.
  intros rp tgt cs targets targets' out Hp H. unfold MixModel.run in *.
  revert out H. induction (ti_sectors tgt) as [|ts l IH]; intros out H; cbn in *.
  - injection H as <-. exists []. split; [reflexivity|constructor].
  - apply bind_inv in H. destruct H as (row & Hrow & H). apply bind_inv in H. destruct H as (r0 & Hr & H). injection H as <-.
    unfold MixModel.run_sector in Hrow at 1. apply bind_inv in Hrow. destruct Hrow as (sm & Hsm & Hrow).
    destruct (map_blocks_forall2 _ _ same_matrix (generate tol sm ts) targets targets' row) as (row' & Hrow' & F); [|exact Hrow|].
    { clear - Hp. induction Hp; constructor; [|assumption]. intros r Hr. eapply generate_perm; eassumption. }
    destruct (IH _ Hr) as (r' & Hr' & F').
    exists (row' :: r'). split; [|constructor; assumption].
    unfold MixModel.run_sector at 1. rewrite Hsm. cbn [bind]. rewrite Hrow'. cbn [bind]. rewrite Hr'. reflexivity.
Qed.

(** * end to end for input files *)
Lemma mixer_inputs : forall rp xs obs tgt fs targets, NoDup (map fst fs) -> index_ok tgt -> Forall (fun p => file_ok (snd p)) fs ->
  exists out, mixer F1 F2 F12 tol rp xs obs tgt (inputs fs) targets = Ok out
  /\ length out = length (ti_sectors tgt)
  /\ forall i ts row, nth_error (ti_sectors tgt) i = Some ts -> nth_error out i = Some row ->
     length row = length targets
  /\ forall k coefficients m, nth_error targets k = Some coefficients -> nth_error row k = Some m ->
     dims m ts /\ forall a b, (a < rows m)%nat -> (b < cols m)%nat ->
     exists v, (forall id f, In (id, f) fs -> labelled f tgt ts a b (v id)) /\ (forall id, ~ In id (map fst fs) -> v id = 0)
       /\ chopped tol (combination coefficients v) (at_ m a b).
Proof.
  intros rp xs obs tgt fs targets Hn Ht Hf.
  assert (Hinit : exists cs, map_blocks (initialize rp xs obs tgt) (inputs fs) = Ok cs
     /\ Forall2 (fun p c => fst c = fst p /\ exists mp, snd c = CInput (snd p) mp
         /\ make_mapping (ti_orb (if_ix (snd p))) (ti_space (if_ix (snd p))) (ti_orb tgt) (ti_space tgt) = Ok mp) fs cs).
  { clear Hn. induction Hf as [|[id f] fs Hfi Hf IH]; [exists []; split; [reflexivity|constructor]|].
    destruct IH as (cs & E & F). cbn [snd] in Hfi.
    destruct (remap_spec (ti_orb (if_ix f)) (ti_orb tgt) _ _ (xk_space _ (fk_index _ Hfi)) (xk_space _ Ht)) as (mp & Emp & _).
    exists ((id, CInput f mp) :: cs). cbn [inputs map map_blocks fst snd initialize]. rewrite Emp. cbn [bind].
    fold (inputs fs). rewrite E. cbn [bind]. split; [reflexivity|]. constructor; [|exact F]. split; [reflexivity|].
    exists mp. split; [reflexivity|exact Emp]. }
  destruct Hinit as (cs & Ei & Fcs). unfold mixer. rewrite Ei. cbn [bind].
  assert (Efst : map fst cs = map fst fs).
  { clear - Fcs. induction Fcs as [|p c fs cs [E _] F IH]; [reflexivity|]. cbn. rewrite E, IH. reflexivity. }
  assert (Hn' : NoDup (map fst cs)) by (rewrite Efst; exact Hn).
  assert (Hc : forall c, In c cs -> exists p mp, In p fs /\ file_ok (snd p) /\ fst c = fst p /\ snd c = CInput (snd p) mp
     /\ make_mapping (ti_orb (if_ix (snd p))) (ti_space (if_ix (snd p))) (ti_orb tgt) (ti_space tgt) = Ok mp).
  { clear - Fcs Hf. induction Fcs as [|p c fs cs [E (mp & E1 & E2)] F IH]; intros c0 [].
    - subst. inversion Hf; subst. exists p, mp. split; [left; reflexivity|]. auto.
    - inversion Hf; subst. destruct (IH H3 c0 H) as (p' & mp' & ? & ?). exists p', mp'. split; [right; assumption|assumption]. }
  assert (Hsec : forall ts, In ts (ti_sectors tgt) -> sector_of (ti_space tgt) ts).
  { intros ts Hts. exact (proj1 (Forall_forall _ _) (xk_sectors _ Ht) ts Hts). }
  assert (Hpop : forall ts c, In ts (ti_sectors tgt) -> In c cs -> exists p v, In p fs /\ fst c = fst p /\ populate rp tgt ts c = Ok v
     /\ (forall x, v = Some x -> dims x ts)
     /\ forall a b, (a < length (ss_states (s_bra ts)))%nat -> (b < length (ss_states (s_ket ts)))%nat ->
        labelled (snd p) tgt ts a b (match v with Some x => at_ x a b | None => 0 end)).
  { intros ts c Hts Hin. destruct (Hc c Hin) as (p & mp & Hp & Hpf & E1 & E2 & E3).
    destruct (input_channel (snd p) tgt ts Hpf Ht (Hsec ts Hts)) as (mp' & E3' & v & Ev & Dv & Lv).
    rewrite E3 in E3'. injection E3' as <-. exists p, v. split; [exact Hp|]. split; [exact E1|].
    split; [|split; assumption]. unfold MixModel.populate. rewrite E2. exact Ev. }
  destruct (run_ok rp tgt cs targets Hn') as (out & Hout).
  { intros ts c Hts Hin. destruct (Hpop ts c Hts Hin) as (p & v & _ & _ & Ev & Dv & _). exists v. split; assumption. }
  exists out. split; [exact Hout|]. destruct (run_spec rp tgt cs targets out Hn' Hout) as [HL HN]. split; [exact HL|].
  intros i ts row Hi Hrow. destruct (HN i ts row Hi Hrow) as [RL RN]. split; [exact RL|].
  intros k co m Hk Hm. destruct (RN k co m Hk Hm) as [D V]. split; [exact D|]. intros a b Ha Hb.
  destruct (V a b Ha Hb) as (v & (P1 & P2 & P3) & Ch). exists v. split; [|split; [|exact Ch]].
  - intros id f Hin.
    assert (Hin' : exists c, In c cs /\ fst c = id).
    { assert (In id (map fst cs)) by (rewrite Efst; apply (in_map fst) in Hin; exact Hin).
      apply in_map_iff in H. destruct H as (c & <- & Hc0). eauto. }
    destruct Hin' as (c & Hc0 & <-). destruct (Hpop ts c (nth_error_In _ _ Hi) Hc0) as (p & w & Hp & E1 & Ew & Dw & Lw).
    assert (p = (fst c, f)) as ->.
    { destruct p as [id' f']. cbn in E1. rewrite E1 in *.
      destruct (Hc c Hc0) as (p2 & mp2 & Hp2 & _).
      assert (HH : forall x y z, In (x, y) fs -> In (x, z) fs -> y = z).
      { clear - Hn. induction fs as [|[u w] fs IH]; intros x y z [] []; inversion Hn; subst.
        - congruence. - injection H as <- <-. elim H3. apply (in_map fst) in H0. exact H0.
        - injection H0 as <- <-. elim H3. apply (in_map fst) in H. exact H. - eapply IH; eassumption. }
      f_equal. eapply HH; eassumption. }
    destruct D as [Dr Dc]. rewrite Dr in Ha. rewrite Dc in Hb. specialize (Lw a b Ha Hb). cbn [snd] in Lw.
    destruct w as [x|].
    + rewrite (P1 c x Hc0 Ew). exact Lw.
    + rewrite (P2 c Hc0 Ew). exact Lw.
  - intros id Hid. apply P3. rewrite Efst. exact Hid.
Qed.
End Mixer.
