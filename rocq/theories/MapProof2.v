(** Proofs for C16-C19: the whole mapping. *)
From Coq Require Import List ZArith Lia Bool Permutation.
From Verif Require Import Base BaseLemmas H2Model MapModel MapSpec MapProof.
Import ListNotations.
Open Scope nat_scope.
Open Scope outcome_scope.

Definition is_some {A} (o : option A) : bool := match o with Some _ => true | None => false end.
Definition images (es : list (option nat * Z)) : list nat :=
  flat_map (fun e => match fst e with Some k => [k] | None => [] end) es.

Lemma map_states_eq : forall src om s t l es e0 d n,
  Forall2 (fun ij e => map_state src om s t ij = Ok e) l es ->
  map_states src om s t l e0 d n
  = Ok (e0 ++ es, (d && forallb (fun e => is_some (fst e)) es)%bool, n + length (images es)).
Proof.
  intros src om s t l es e0 d n H. revert e0 d n. induction H as [|ij e l es H H' IH]; intros e0 d n.
  - cbn. rewrite app_nil_r, andb_true_r, Nat.add_0_r. reflexivity.
  - cbn [map_states]. rewrite H, bind_Ok. destruct (fst e) as [k|] eqn:Ek; rewrite IH; cbn; rewrite Ek; cbn;
      rewrite <- app_assoc; cbn [app].
    + do 2 f_equal.
      fold (images es). lia.
    + rewrite andb_false_r. reflexivity.
Qed.

Section Whole.
Variables (src tgt : ospace) (ssp tsp : list subspace).
Hypothesis Hs : space_ok src ssp.
Hypothesis Ht : space_ok tgt tsp.
Let om := orbital_mapping src tgt.

Definition target_index (s : subspace) : option nat := lookup labels_eqb (map sub_labels tsp) (sub_labels s).
Definition target_of (s : subspace) : option subspace :=
  match target_index s with Some i => nth_error tsp i | None => None end.
Definition entries_of (s : subspace) : list (option nat * Z) :=
  match target_of s with
  | Some t => map (fun ij => match map_state src om s t ij with Ok e => e | _ => (None, 0%Z) end) (ss_states s)
  | None => []
  end.

Lemma target_index_nth : forall s i, target_index s = Some i ->
  exists t, nth_error tsp i = Some t /\ sub_labels s = sub_labels t /\ In t tsp.
Proof.
  intros s i H. unfold target_index in H. apply (lookup_some _ labels_eqb_ok) in H.
  rewrite nth_error_map in H. destruct (nth_error tsp i) as [t|] eqn:E; cbn in H; [|discriminate].
  exists t. split; [reflexivity|]. split; [congruence|]. eapply nth_error_In; eauto.
Qed.
Lemma target_index_none : forall s, target_index s = None <-> ~ sub_in s tsp.
Proof.
  intros s. unfold target_index. rewrite (lookup_none _ labels_eqb_ok), in_map_iff. unfold sub_in.
  split; intros H (t & H1 & H2); apply H; exists t; auto.
Qed.
Lemma target_of_some : forall s t, target_of s = Some t -> In t tsp /\ sub_labels s = sub_labels t.
Proof.
  intros s t H. unfold target_of in H. destruct (target_index s) as [i|] eqn:E; [|discriminate].
  destruct (target_index_nth s i E) as (t' & H1 & H2 & H3). rewrite H1 in H. injection H as <-. auto.
Qed.
Lemma NoDup_map_inj : forall A B (f : A -> B) l x y, NoDup (map f l) -> In x l -> In y l -> f x = f y -> x = y.
Proof.
  intros A B f l. induction l as [|z l IH]; cbn; intros x y H Hx Hy E; [contradiction|].
  inversion H as [|? ? Hn Hd]; subst. destruct Hx as [<-|Hx]; destruct Hy as [<-|Hy].
  - reflexivity.
  - elim Hn. rewrite E. apply in_map. exact Hy.
  - elim Hn. rewrite <- E. apply in_map. exact Hx.
  - auto.
Qed.
Lemma target_of_unique : forall s t, In t tsp -> sub_labels s = sub_labels t -> target_of s = Some t.
Proof.
  intros s t Hin Hl. unfold target_of. destruct (target_index s) as [i|] eqn:E.
  - destruct (target_index_nth s i E) as (t' & H1 & H2 & H3). rewrite H1. f_equal.
    eapply (NoDup_map_inj _ _ sub_labels); [apply (so_labels _ _ Ht)|exact H3|exact Hin|congruence].
  - apply target_index_none in E. elim E. exists t. auto.
Qed.
Lemma target_of_none : forall s, target_of s = None <-> ~ sub_in s tsp.
Proof.
  intros s. split.
  - intros H (t & Hin & Hl). rewrite (target_of_unique s t Hin Hl) in H. discriminate.
  - intros H. destruct (target_of s) as [t|] eqn:E; [|reflexivity]. elim H. exists t. apply target_of_some. exact E.
Qed.
Lemma target_of_index : forall s, is_some (target_index s) = is_some (target_of s).
Proof.
  intros s. unfold target_of. destruct (target_index s) as [i|] eqn:E; [|reflexivity].
  destruct (target_index_nth s i E) as (t' & H1 & _). rewrite H1. reflexivity.
Qed.

Lemma entries_map : forall s t, In s ssp -> target_of s = Some t ->
  Forall2 (fun ij e => map_state src om s t ij = Ok e) (ss_states s) (entries_of s).
Proof.
  intros s t Hin Htg. unfold entries_of. rewrite Htg. destruct (target_of_some s t Htg) as [Hit Hl].
  assert (H : Forall (fun ij => exists e, map_state src om s t ij = Ok e) (ss_states s)).
  { apply Forall_forall. intros ij Hij. apply In_nth_error in Hij. destruct Hij as [i Hi].
    destruct (map_state_spec _ _ _ _ Hs Ht s i ij t Hin Hit Hl Hi) as (k & ph & E & _). eauto. }
  induction H as [|ij l [e He] _ IH]; cbn; constructor; auto. rewrite He. reflexivity.
Qed.

Lemma entries_spec : forall s t i, In s ssp -> In t tsp -> sub_labels s = sub_labels t -> i < length (ss_states s) ->
  exists k ph, nth_error (entries_of s) i = Some (k, ph)
  /\ forall j p, same_state src s i tgt t j p <-> k = Some j /\ p = i32 ph.
Proof.
  intros s t i Hin Hit Hl Hi. destruct (nth_error (ss_states s) i) as [ij|] eqn:E; [|apply nth_error_Some in Hi; congruence].
  destruct (map_state_spec _ _ _ _ Hs Ht s i ij t Hin Hit Hl E) as (k & ph & Em & H).
  exists k, ph. split; [|exact H]. unfold entries_of. rewrite (target_of_unique s t Hit Hl).
  rewrite nth_error_map, E. cbn. fold om in Em. rewrite Em. reflexivity.
Qed.
Lemma entries_length : forall s t, target_of s = Some t -> length (entries_of s) = length (ss_states s).
Proof. intros s t H. unfold entries_of. rewrite H. apply map_length. Qed.

Definition all_mapped (es : list (option nat * Z)) : bool := forallb (fun e => is_some (fst e)) es.
Definition covers (s : subspace) : bool :=
  match target_of s with Some t => Nat.eqb (length (images (entries_of s))) (ss_size t) | None => true end.

Lemma map_subspaces_eq : forall l m n, (forall s, In s l -> In s ssp) ->
  map_subspaces src om tsp l m n
  = Ok (Mapping (m_orb m) (m_sub m ++ map target_index l) (m_state m ++ map entries_of l)
         (m_dsub m && forallb (fun s => is_some (target_of s)) l)
         (m_dsta m && forallb (fun s => is_some (target_of s) && all_mapped (entries_of s)) l)
         (m_rsub m) (m_rsta m && forallb covers l),
        n + length (filter (fun s => is_some (target_of s)) l)).
Proof.
  induction l as [|s l IH]; intros m n Hl.
  - destruct m. cbn. rewrite !app_nil_r, !andb_true_r, Nat.add_0_r. reflexivity.
  - cbn [map_subspaces]. fold (target_index s).
    assert (Hent : target_of s = None -> entries_of s = []) by (intros H; unfold entries_of; rewrite H; reflexivity).
    pose proof (target_of_index s) as Hti.
    assert (Hcov : covers s = match target_of s with Some t => Nat.eqb (length (images (entries_of s))) (ss_size t) | None => true end) by reflexivity.
    destruct (target_index s) as [i|] eqn:E.
    + destruct (target_index_nth s i E) as (t & Hn & Hlab & Hit).
      rewrite Hn. cbn [get]. rewrite bind_Ok.
      assert (Htg : target_of s = Some t) by (unfold target_of; rewrite E; exact Hn).
      rewrite (map_states_eq _ _ _ _ _ _ _ _ _ (entries_map s t (Hl s (or_introl eq_refl)) Htg)). rewrite bind_Ok.
      rewrite IH by (intros; apply Hl; right; assumption).
      cbn [m_orb m_sub m_state m_dsub m_dsta m_rsub m_rsta map forallb filter app].
      rewrite Hcov, Htg, E. cbn [is_some length andb]. rewrite <- !app_assoc. cbn [app].
      unfold all_mapped. rewrite <- !andb_assoc. do 2 f_equal. lia.
    + cbn in Hti. assert (Htg : target_of s = None) by (destruct (target_of s); [discriminate|reflexivity]).
      rewrite IH by (intros; apply Hl; right; assumption).
      cbn [m_orb m_sub m_state m_dsub m_dsta m_rsub m_rsta map forallb filter app].
      rewrite Hcov, Htg, E, (Hent Htg). cbn [is_some length andb]. rewrite <- !app_assoc. cbn [app].
      rewrite !andb_false_r. reflexivity.
Qed.

Definition the_mapping : mapping :=
  let rsub := Nat.eqb (length (filter (fun s => is_some (target_of s)) ssp)) (length tsp) in
  Mapping om (map target_index ssp) (map entries_of ssp)
    (forallb (fun s => is_some (target_of s)) ssp)
    (forallb (fun s => is_some (target_of s) && all_mapped (entries_of s)) ssp)
    rsub (forallb covers ssp && rsub).

Lemma make_mapping_eq : make_mapping src ssp tgt tsp = Ok the_mapping.
Proof.
  unfold make_mapping. cbv zeta. fold om. rewrite map_subspaces_eq by auto. reflexivity.
Qed.

(** * flags *)
Lemma dsub_spec : m_dsub the_mapping = true <-> forall s, In s ssp -> sub_in s tsp.
Proof.
  cbn [m_dsub the_mapping]. rewrite forallb_forall. split; intros H s Hin.
  - specialize (H s Hin). destruct (target_of s) as [t|] eqn:E; [|discriminate]. exists t. apply target_of_some. exact E.
  - specialize (H s Hin). destruct (target_of s) eqn:E; [reflexivity|]. apply target_of_none in E. contradiction.
Qed.

Lemma all_mapped_spec : forall s t, In s ssp -> target_of s = Some t ->
  (all_mapped (entries_of s) = true <-> forall i, i < length (ss_states s) -> exists j p, same_state src s i tgt t j p).
Proof.
  intros s t Hin Htg. destruct (target_of_some s t Htg) as [Hit Hl]. unfold all_mapped. rewrite forallb_forall. split.
  - intros H i Hi. destruct (entries_spec s t i Hin Hit Hl Hi) as (k & ph & Hn & Hk).
    specialize (H _ (nth_error_In _ _ Hn)). cbn in H. destruct k as [j|]; [|discriminate].
    exists j, (i32 ph). apply Hk. auto.
  - intros H e He. apply In_nth_error in He. destruct He as [i Hi].
    assert (Hlen : i < length (ss_states s)) by (rewrite <- (entries_length s t Htg); apply nth_error_Some; congruence).
    destruct (entries_spec s t i Hin Hit Hl Hlen) as (k & ph & Hn & Hk). rewrite Hi in Hn. injection Hn as ->.
    destruct (H i Hlen) as (j & p & Hj). apply Hk in Hj. destruct Hj as [-> _]. reflexivity.
Qed.

Lemma dsta_spec : m_dsta the_mapping = true <->
  forall s i, In s ssp -> i < length (ss_states s) -> state_in src s i tgt tsp.
Proof.
  cbn [m_dsta the_mapping]. rewrite forallb_forall. split.
  - intros H s i Hin Hi. specialize (H s Hin). apply andb_prop in H. destruct H as [H1 H2].
    destruct (target_of s) as [t|] eqn:E; [|discriminate]. destruct (target_of_some s t E) as [Hit Hl].
    destruct (proj1 (all_mapped_spec s t Hin E) H2 i Hi) as (j & p & Hj). exists t, j, p. auto.
  - intros H s Hin.
    assert (Hne : 0 < length (ss_states s)).
    { pose proof (so_states _ _ Hs) as Hd. rewrite Forall_forall in Hd. destruct (Hd s Hin) as [_ Hne].
      destruct (ss_states s); [elim Hne; reflexivity|cbn; lia]. }
    destruct (H s 0 Hin Hne) as (t & j & p & Hit & Hl & _). pose proof (target_of_unique s t Hit Hl) as E.
    rewrite E. cbn [is_some andb]. apply (all_mapped_spec s t Hin E). intros i Hi.
    destruct (H s i Hin Hi) as (t' & j' & p' & Hit' & Hl' & Hss). pose proof (target_of_unique s t' Hit' Hl') as E'.
    rewrite E in E'. injection E' as <-. eauto.
Qed.

Lemma length_covers : forall A (l1 l2 : list A), NoDup l1 -> NoDup l2 -> incl l1 l2 ->
  (length l1 = length l2 <-> incl l2 l1).
Proof.
  intros A l1 l2 N1 N2 Hi. split.
  - intros H. apply NoDup_length_incl; auto. lia.
  - intros H. apply Nat.le_antisymm; apply NoDup_incl_length; auto.
Qed.
Lemma NoDup_map_filter : forall A B (f : A -> B) p l, NoDup (map f l) -> NoDup (map f (filter p l)).
Proof.
  intros A B f p l. induction l as [|x l IH]; cbn; intros H; [constructor|].
  inversion H as [|? ? Hn Hd]; subst. destruct (p x); cbn; auto. constructor; auto.
  intros Hin. apply Hn. apply in_map_iff in Hin. destruct Hin as (y & E & Hy). apply filter_In in Hy.
  apply in_map_iff. exists y. tauto.
Qed.

Lemma rsub_spec : m_rsub the_mapping = true <-> forall t, In t tsp -> exists s, In s ssp /\ sub_labels s = sub_labels t.
Proof.
  cbn [m_rsub the_mapping]. rewrite Nat.eqb_eq.
  assert (H : length (map sub_labels (filter (fun s => is_some (target_of s)) ssp)) = length (map sub_labels tsp)
     <-> incl (map sub_labels tsp) (map sub_labels (filter (fun s => is_some (target_of s)) ssp))).
  { apply length_covers.
    - apply NoDup_map_filter. apply (so_labels _ _ Hs).
    - apply (so_labels _ _ Ht).
    - intros x Hx. apply in_map_iff in Hx. destruct Hx as (s & <- & Hx). apply filter_In in Hx. destruct Hx as [Hin Hx].
      destruct (target_of s) as [t|] eqn:E; [|discriminate]. destruct (target_of_some s t E) as [Hit ->]. apply in_map. exact Hit. }
  rewrite !map_length in H. rewrite H. split.
  - intros Hi t Hit. specialize (Hi _ (in_map sub_labels _ _ Hit)). apply in_map_iff in Hi.
    destruct Hi as (s & E & Hin). apply filter_In in Hin. exists s. tauto.
  - intros Hi x Hx. apply in_map_iff in Hx. destruct Hx as (t & <- & Hit). destruct (Hi t Hit) as (s & Hin & E).
    apply in_map_iff. exists s. split; [exact E|]. apply filter_In. split; [exact Hin|].
    rewrite (target_of_unique s t Hit E). reflexivity.
Qed.

Lemma images_in : forall es k, In k (images es) <-> exists i ph, nth_error es i = Some (Some k, ph).
Proof.
  intros es k. unfold images. rewrite in_flat_map. split.
  - intros ([[j|] ph] & Hin & Hk); cbn in Hk; [|contradiction]. destruct Hk as [->|[]].
    apply In_nth_error in Hin. destruct Hin as [i Hi]. eauto.
  - intros (i & ph & H). exists (Some k, ph). split; [eapply nth_error_In; eauto|]. cbn. auto.
Qed.
Lemma NoDup_images : forall es,
  (forall i i' k p p', nth_error es i = Some (Some k, p) -> nth_error es i' = Some (Some k, p') -> i = i') ->
  NoDup (images es).
Proof.
  induction es as [|[[k|] p] es IH]; cbn; intros H.
  - constructor.
  - constructor.
    + intros Hin. apply images_in in Hin. destruct Hin as (i & ph & Hi).
      specialize (H 0 (S i) k p ph eq_refl Hi). discriminate.
    + apply IH. intros i i' k' q q' Hi Hi'. specialize (H (S i) (S i') k' q q' Hi Hi'). congruence.
  - apply IH. intros i i' k' q q' Hi Hi'. specialize (H (S i) (S i') k' q q' Hi Hi'). congruence.
Qed.

Lemma entries_inv : forall s t i k ph, In s ssp -> target_of s = Some t ->
  nth_error (entries_of s) i = Some (k, ph) ->
  i < length (ss_states s) /\ forall j p, same_state src s i tgt t j p <-> k = Some j /\ p = i32 ph.
Proof.
  intros s t i k ph Hin Htg Hn. destruct (target_of_some s t Htg) as [Hit Hl].
  assert (Hi : i < length (ss_states s)) by (rewrite <- (entries_length s t Htg); apply nth_error_Some; congruence).
  split; [exact Hi|]. destruct (entries_spec s t i Hin Hit Hl Hi) as (k' & ph' & Hn' & H). rewrite Hn in Hn'. injection Hn' as <- <-. exact H.
Qed.

Lemma covers_spec : forall s t, In s ssp -> target_of s = Some t ->
  (covers s = true <-> forall j, j < length (ss_states t) -> exists i p, same_state src s i tgt t j p).
Proof.
  intros s t Hin Htg. destruct (target_of_some s t Htg) as [Hit Hl]. unfold covers. rewrite Htg, Nat.eqb_eq. unfold ss_size.
  assert (Hlen : length (ss_states t) = length (seq 0 (length (ss_states t)))) by (rewrite seq_length; reflexivity).
  rewrite Hlen at 1. rewrite length_covers.
  - split.
    + intros H j Hj. assert (Hin' : In j (images (entries_of s))) by (apply H; apply in_seq; lia).
      apply images_in in Hin'. destruct Hin' as (i & ph & Hi).
      destruct (entries_inv s t i _ _ Hin Htg Hi) as [_ Hiff]. exists i, (i32 ph). apply Hiff. auto.
    + intros H j Hj. apply in_seq in Hj. destruct (H j ltac:(lia)) as (i & p & Hss). apply images_in.
      destruct (entries_spec s t i Hin Hit Hl (proj1 (same_state_range _ _ _ _ _ _ _ Hss))) as (k & ph & Hn & Hiff).
      apply Hiff in Hss. destruct Hss as [-> _]. eauto.
  - apply NoDup_images. intros i i' k p p' Hi Hi'.
    destruct (entries_inv s t i _ _ Hin Htg Hi) as [_ H1]. destruct (entries_inv s t i' _ _ Hin Htg Hi') as [_ H2].
    eapply (same_state_inj src tgt ssp tsp Hs s); [exact Hin|exact Hit|exact Hl|apply H1; auto|apply H2; auto].
  - apply seq_NoDup.
  - intros k Hk. apply images_in in Hk. destruct Hk as (i & ph & Hi). destruct (entries_inv s t i _ _ Hin Htg Hi) as [_ H1].
    pose proof (proj2 (H1 k (i32 ph)) ltac:(auto)) as Hss. apply same_state_range in Hss. apply in_seq. lia.
Qed.

Lemma rsta_spec : m_rsta the_mapping = true <->
  forall t j, In t tsp -> j < length (ss_states t) ->
  exists s i p, In s ssp /\ sub_labels s = sub_labels t /\ same_state src s i tgt t j p.
Proof.
  change (m_rsta the_mapping) with (forallb covers ssp && m_rsub the_mapping)%bool. rewrite andb_true_iff, rsub_spec, forallb_forall.
  split.
  - intros [H1 H2] t j Hit Hj. destruct (H2 t Hit) as (s & Hin & Hl). pose proof (target_of_unique s t Hit Hl) as Htg.
    destruct (proj1 (covers_spec s t Hin Htg) (H1 s Hin) j Hj) as (i & p & Hss). exists s, i, p. auto.
  - intros H. split.
    + intros s Hin. destruct (target_of s) as [t|] eqn:Htg; [|unfold covers; rewrite Htg; reflexivity].
      apply (covers_spec s t Hin Htg). destruct (target_of_some s t Htg) as [Hit Hl]. intros j Hj.
      destruct (H t j Hit Hj) as (s' & i & p & Hin' & Hl' & Hss).
      assert (s = s') by (eapply (NoDup_map_inj _ _ sub_labels); [apply (so_labels _ _ Hs)|exact Hin|exact Hin'|congruence]).
      subst. eauto.
    + intros t Hit.
      assert (Hne : 0 < length (ss_states t)).
      { pose proof (so_states _ _ Ht) as Hd. rewrite Forall_forall in Hd. destruct (Hd t Hit) as [_ Hne].
        destruct (ss_states t); [elim Hne; reflexivity|cbn; lia]. }
      destruct (H t 0 Hit Hne) as (s & i & p & Hin & Hl & _). eauto.
Qed.

Lemma mapping_flags : exists mp, make_mapping src ssp tgt tsp = Ok mp
  /\ (m_dsub mp = true <-> forall s, In s ssp -> sub_in s tsp)
  /\ (m_dsta mp = true <-> forall s i, In s ssp -> i < length (ss_states s) -> state_in src s i tgt tsp)
  /\ (m_rsub mp = true <-> forall t, In t tsp -> sub_in t ssp)
  /\ (m_rsta mp = true <-> forall t j, In t tsp -> j < length (ss_states t) ->
        exists s i p, In s ssp /\ sub_labels s = sub_labels t /\ same_state src s i tgt t j p).
Proof.
  exists the_mapping. split; [exact make_mapping_eq|]. split; [exact dsub_spec|]. split; [exact dsta_spec|].
  split; [|exact rsta_spec]. rewrite rsub_spec. unfold sub_in.
  split; intros H t Hit; destruct (H t Hit) as (s & H1 & H2); exists s; auto.
Qed.

(** * entries of the mapping *)
Lemma entry_spec : forall bi s t i, nth_error ssp bi = Some s -> In t tsp -> sub_labels s = sub_labels t ->
  i < length (ss_states s) ->
  exists k ph, entry the_mapping bi i = Ok (k, ph)
  /\ forall j p, same_state src s i tgt t j p <-> k = Some j /\ p = i32 ph.
Proof.
  intros bi s t i Hb Hit Hl Hi. destruct (entries_spec s t i (nth_error_In _ _ Hb) Hit Hl Hi) as (k & ph & Hn & H).
  exists k, ph. split; [|exact H]. unfold entry. cbn [m_state the_mapping]. rewrite nth_error_map, Hb. cbn [option_map get]. rewrite bind_Ok, Hn. reflexivity.
Qed.

(** a source subspace without counterpart: its vector of entries is empty *)
Lemma entry_missing : forall bi s i, nth_error ssp bi = Some s -> ~ sub_in s tsp -> entry the_mapping bi i = UB.
Proof.
  intros bi s i Hb Hn. apply target_of_none in Hn. unfold entry. cbn [m_state the_mapping]. rewrite nth_error_map, Hb.
  cbn [option_map get]. rewrite bind_Ok. unfold entries_of. rewrite Hn. destruct i; reflexivity.
Qed.

(** * the remapped matrix *)
Section Matrix.
Context {D : Type} (d0 : D) (dscale : Z -> D -> D).

Definition write_of (ss : sector) (m : mat D) (bk : nat * nat) : option (nat * nat * D) :=
  match entry the_mapping (s_bi ss) (fst bk), entry the_mapping (s_ki ss) (snd bk) with
  | Ok (Some rb, pb), Ok (Some rk, pk) => Some (rb, rk, dscale (i32 pb * i32 pk) (at_ m (fst bk) (snd bk)))
  | _, _ => None
  end.

Variables (ss ts : sector) (m : mat D).
Hypothesis Hss : sector_of ssp ss.
Hypothesis Hts : sector_of tsp ts.
Hypothesis Hsame : same_sector ss ts.
Hypothesis Hdim : dims m ss.

Lemma bra_spec : forall i, i < length (ss_states (s_bra ss)) ->
  exists k ph, entry the_mapping (s_bi ss) i = Ok (k, ph)
  /\ forall j p, same_state src (s_bra ss) i tgt (s_bra ts) j p <-> k = Some j /\ p = i32 ph.
Proof. intros i Hi. apply entry_spec; auto. - apply Hss. - eapply nth_error_In. apply Hts. - apply Hsame. Qed.
Lemma ket_spec : forall i, i < length (ss_states (s_ket ss)) ->
  exists k ph, entry the_mapping (s_ki ss) i = Ok (k, ph)
  /\ forall j p, same_state src (s_ket ss) i tgt (s_ket ts) j p <-> k = Some j /\ p = i32 ph.
Proof. intros i Hi. apply entry_spec; auto. - apply Hss. - eapply nth_error_In. apply Hts. - apply Hsame. Qed.

Lemma body_eq : forall b k t, b < length (ss_states (s_bra ss)) -> k < length (ss_states (s_ket ss)) -> dims t ts ->
  remap_body D dscale ss the_mapping m b k t
  = Ok (match write_of ss m (b, k) with Some (rb, rk, x) => mset t rb rk x | None => t end).
Proof.
  intros b k t Hb Hk [Hr Hc]. unfold remap_body, write_of. cbn [fst snd].
  destruct (bra_spec b Hb) as (kb & pb & Eb & Sb). destruct (ket_spec k Hk) as (kk & pk & Ek & Sk).
  rewrite Eb, Ek, bind_Ok. destruct kb as [rb|]; [|reflexivity]. rewrite bind_Ok. destruct kk as [rk|]; [|reflexivity].
  pose proof (proj2 (Sb rb _) (conj eq_refl eq_refl)) as B. pose proof (proj2 (Sk rk _) (conj eq_refl eq_refl)) as K.
  apply same_state_range in B. apply same_state_range in K. destruct Hdim as [Hr' Hc'].
  unfold mget, mput. rewrite Hr, Hc, Hr', Hc'.
  rewrite (proj2 (Nat.ltb_lt b _)), (proj2 (Nat.ltb_lt k _)), (proj2 (Nat.ltb_lt rb _)), (proj2 (Nat.ltb_lt rk _)) by (try assumption; apply B || apply K).
  reflexivity.
Qed.

Lemma write_of_inv : forall b k rb rk x, b < length (ss_states (s_bra ss)) -> k < length (ss_states (s_ket ss)) ->
  write_of ss m (b, k) = Some (rb, rk, x) ->
  exists pb pk, same_state src (s_bra ss) b tgt (s_bra ts) rb pb /\ same_state src (s_ket ss) k tgt (s_ket ts) rk pk
  /\ x = dscale (pb * pk) (at_ m b k).
Proof.
  intros b k rb rk x Hb Hk H. unfold write_of in H. cbn [fst snd] in H.
  destruct (bra_spec b Hb) as (kb & pb & Eb & Sb). destruct (ket_spec k Hk) as (kk & pk & Ek & Sk).
  rewrite Eb, Ek in H. destruct kb as [rb'|]; [|discriminate]. destruct kk as [rk'|]; [|discriminate].
  injection H as -> -> <-. exists (i32 pb), (i32 pk). split; [apply Sb; auto|]. split; [apply Sk; auto|reflexivity].
Qed.
Lemma write_of_ex : forall b k rb rk pb pk,
  same_state src (s_bra ss) b tgt (s_bra ts) rb pb -> same_state src (s_ket ss) k tgt (s_ket ts) rk pk ->
  write_of ss m (b, k) = Some (rb, rk, dscale (pb * pk) (at_ m b k)).
Proof.
  intros b k rb rk pb pk B K. unfold write_of. cbn [fst snd].
  destruct (bra_spec b (proj1 (same_state_range _ _ _ _ _ _ _ B))) as (kb & qb & Eb & Sb).
  destruct (ket_spec k (proj1 (same_state_range _ _ _ _ _ _ _ K))) as (kk & qk & Ek & Sk).
  apply Sb in B. apply Sk in K. destruct B as [-> ->]. destruct K as [-> ->]. rewrite Eb, Ek. reflexivity.
Qed.

Definition valid (bk : nat * nat) : Prop := fst bk < length (ss_states (s_bra ss)) /\ snd bk < length (ss_states (s_ket ss)).

Lemma write_of_inj : forall p q rb rk x y, valid p -> valid q ->
  write_of ss m p = Some (rb, rk, x) -> write_of ss m q = Some (rb, rk, y) -> p = q.
Proof.
  intros [b k] [b' k'] rb rk x y [Vb Vk] [Vb' Vk'] H H'. cbn in *.
  destruct (write_of_inv b k rb rk x Vb Vk H) as (pb & pk & B & K & _).
  destruct (write_of_inv b' k' rb rk y Vb' Vk' H') as (pb' & pk' & B' & K' & _).
  f_equal.
  - eapply (same_state_inj src tgt ssp tsp Hs (s_bra ss) b b' (s_bra ts)); [eapply nth_error_In; apply Hss|eapply nth_error_In; apply Hts|apply Hsame|exact B|exact B'].
  - eapply (same_state_inj src tgt ssp tsp Hs (s_ket ss) k k' (s_ket ts)); [eapply nth_error_In; apply Hss|eapply nth_error_In; apply Hts|apply Hsame|exact K|exact K'].
Qed.

Lemma loop_spec : forall order t, Forall valid order -> NoDup order -> dims t ts ->
  exists r, loop2 order (remap_body D dscale ss the_mapping m) t = Ok r /\ dims r ts
  /\ (forall p rb rk x, In p order -> write_of ss m p = Some (rb, rk, x) -> at_ r rb rk = x)
  /\ (forall i j, (forall p x, In p order -> write_of ss m p <> Some (i, j, x)) -> at_ r i j = at_ t i j).
Proof.
  induction order as [|[b k] order IH]; intros t Hv Hn Hd.
  - exists t. repeat split; try apply Hd; try contradiction; auto.
  - inversion Hv as [|? ? [Hb Hk] Hv']; subst. inversion Hn as [|? ? Hnin Hn']; subst. cbn [fst snd] in *.
    cbn [loop2]. rewrite body_eq by assumption. rewrite bind_Ok.
    destruct (write_of ss m (b, k)) as [[[rb rk] x]|] eqn:W.
    + destruct (IH (mset t rb rk x) Hv' Hn' Hd) as (r & E & Hdr & H1 & H2).
      exists r. split; [exact E|]. split; [exact Hdr|]. split.
      * intros p rb' rk' x' [<-|Hin] Hw.
        -- rewrite W in Hw. injection Hw as <- <- <-.
           rewrite H2.
           ++ unfold mset. cbn. rewrite !Nat.eqb_refl. reflexivity.
           ++ intros p y Hp Hw. apply Hnin. rewrite Forall_forall in Hv'.
              rewrite (write_of_inj (b, k) p rb rk x y); auto. split; assumption.
        -- eapply H1; eauto.
      * intros i j H. rewrite H2 by (intros; apply H; right; assumption).
        unfold mset. cbn. destruct (Nat.eqb_spec i rb) as [->|]; [|reflexivity]. destruct (Nat.eqb_spec j rk) as [->|]; [|reflexivity].
        elim (H (b, k) x (or_introl eq_refl)). exact W.
    + destruct (IH t Hv' Hn' Hd) as (r & E & Hdr & H1 & H2).
      exists r. split; [exact E|]. split; [exact Hdr|]. split.
      * intros p rb' rk' x' [<-|Hin] Hw; [congruence|]. eapply H1; eauto.
      * intros i j H. apply H2. intros; apply H; right; assumption.
Qed.

Lemma remap_order_spec : forall order, Permutation order (pairs (length (ss_states (s_bra ss))) (length (ss_states (s_ket ss)))) ->
  exists r, remap_in_order D d0 dscale order ss ts the_mapping m = Ok r /\ dims r ts
  /\ (forall sb sk tb tk pb pk, same_state src (s_bra ss) sb tgt (s_bra ts) tb pb ->
        same_state src (s_ket ss) sk tgt (s_ket ts) tk pk -> at_ r tb tk = dscale (pb * pk) (at_ m sb sk))
  /\ (forall tb tk, (forall sb p, ~ same_state src (s_bra ss) sb tgt (s_bra ts) tb p)
        \/ (forall sk p, ~ same_state src (s_ket ss) sk tgt (s_ket ts) tk p) -> at_ r tb tk = d0).
Proof.
  intros order Hp. unfold remap_in_order.
  assert (Hv : Forall valid order).
  { apply Forall_forall. intros [b k] Hin. apply (Permutation_in _ Hp) in Hin. apply in_pairs in Hin. exact Hin. }
  assert (Hn : NoDup order) by (eapply Permutation_NoDup; [apply Permutation_sym; exact Hp|apply NoDup_pairs]).
  destruct (loop_spec order (mzero d0 (ss_size (s_bra ts)) (ss_size (s_ket ts))) Hv Hn (conj eq_refl eq_refl)) as (r & E & Hd & H1 & H2).
  exists r. split; [exact E|]. split; [exact Hd|]. split.
  - intros sb sk tb tk pb pk B K. eapply H1; [|apply write_of_ex; eassumption].
    apply (Permutation_in _ (Permutation_sym Hp)). apply in_pairs. split; [exact (proj1 (same_state_range _ _ _ _ _ _ _ B))|exact (proj1 (same_state_range _ _ _ _ _ _ _ K))].
  - intros tb tk H. rewrite H2; [reflexivity|]. intros [b k] x Hin Hw.
    rewrite Forall_forall in Hv. destruct (Hv _ Hin) as [Vb Vk]. cbn in Vb, Vk.
    destruct (write_of_inv b k tb tk x Vb Vk Hw) as (pb & pk & B & K & _). destruct H as [H|H]; eapply H; eassumption.
Qed.
End Matrix.
End Whole.
