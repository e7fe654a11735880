(** The sum over pairs of orbitals as a sum over the elements of a density file; the value of an observable. *)
From Coq Require Import String List ZArith Reals Bool Lra Lia.
From Verif Require Import Base RMat H2Model MapModel OscModel BlockModel BlockSpec BlockProof ObioModel ObioSpec ObioProof ObioFinal ObioMore MixModel MixProof ObmModel NatModel RgModel HmModel ObsModel ObsSpec.
Import ListNotations.
Open Scope R_scope.

Lemma ssum_plus : forall sp f g, ssum sp (fun J j => f J j + g J j) = ssum sp f + ssum sp g.
Proof. intros. unfold ssum. rewrite <- rsum_plus. apply rsum_ext. intros. apply rsum_plus. Qed.
Definition at4 (P p Q q : nat) (P' p' Q' q' : nat) : bool := Nat.eqb P' P && Nat.eqb p' p && (Nat.eqb Q' Q && Nat.eqb q' q).
Lemma at4_true : forall P p Q q P' p' Q' q', at4 P p Q q P' p' Q' q' = true -> P' = P /\ p' = p /\ Q' = Q /\ q' = q.
Proof. unfold at4. intros. rewrite !andb_true_iff, !Nat.eqb_eq in H. tauto. Qed.
Lemma ssum2_at : forall sp (F : nat -> nat -> nat -> nat -> R) P p Q q, state sp P p -> state sp Q q ->
  ssum sp (fun P' p' => ssum sp (fun Q' q' => if at4 P p Q q P' p' Q' q' then F P' p' Q' q' else 0)) = F P p Q q.
Proof.
  intros sp F P p Q q HP HQ. rewrite (ssum_one sp P p); [|exact HP|].
  - rewrite (ssum_one sp Q q); [|exact HQ|].
    + unfold at4. rewrite !Nat.eqb_refl. reflexivity.
    + intros J j _ Hn. destruct (at4 P p Q q P p J j) eqn:E; [|reflexivity]. apply at4_true in E. destruct E as (_ & _ & -> & ->). congruence.
  - intros J j _ Hn. apply ssum_0. intros K k _. destruct (at4 P p Q q J j K k) eqn:E; [|reflexivity]. apply at4_true in E. destruct E as (-> & -> & _). congruence.
Qed.
Lemma sum_elements : forall sp (W : flab -> flab -> R) (c : nat -> nat -> nat -> nat -> R), space_ok sp ->
  (forall a b P p Q q, carries sp a P p -> carries sp b Q q -> c P p Q q = W a b) ->
  forall (l : list (flab * flab * R)) F, NoDup (map fst l) ->
  (forall a b v, In (a, b, v) l -> exists P p Q q, carries sp a P p /\ carries sp b Q q) ->
  (forall a b v P p Q q, In (a, b, v) l -> carries sp a P p -> carries sp b Q q -> F P p Q q = v) ->
  (forall P p Q q, state sp P p -> state sp Q q -> (forall a b v, In (a, b, v) l -> ~ (carries sp a P p /\ carries sp b Q q)) -> F P p Q q = 0) ->
  ssum sp (fun P p => ssum sp (fun Q q => c P p Q q * F P p Q q)) = lsum l (fun x => let '(a, b, v) := x in W a b * v).
Proof.
  intros sp W c Hs Hc l. induction l as [|[[a b] v] l IH]; intros F Hnd Hl Hv H0.
  - cbn. apply ssum_0. intros P p HP. apply ssum_0. intros Q q HQ. rewrite (H0 P p Q q HP HQ); [ring|]. intros ? ? ? [].
  - destruct (Hl a b v (or_introl eq_refl)) as (P0 & p0 & Q0 & q0 & Ha & Hb). cbn in Hnd. inversion Hnd as [|? ? Hni Hnd']; subst.
    cbn [lsum]. rewrite <- (IH (fun P p Q q => if at4 P0 p0 Q0 q0 P p Q q then 0 else F P p Q q)).
    + assert (Ev : W a b * v = ssum sp (fun P p => ssum sp (fun Q q => if at4 P0 p0 Q0 q0 P p Q q then c P p Q q * F P p Q q else 0))).
      { rewrite (ssum2_at sp (fun P p Q q => c P p Q q * F P p Q q)); [|eapply carries_state; eassumption|eapply carries_state; eassumption].
        rewrite (Hc a b P0 p0 Q0 q0 Ha Hb), (Hv a b v P0 p0 Q0 q0 (or_introl eq_refl) Ha Hb). reflexivity. }
      rewrite Ev, <- ssum_plus. apply ssum_ext. intros P p _. rewrite <- ssum_plus. apply ssum_ext. intros Q q _. destruct (at4 P0 p0 Q0 q0 P p Q q); ring.
    + exact Hnd'.
    + intros. eapply Hl. right. eassumption.
    + intros a' b' v' P p Q q Hin Ha' Hb'. destruct (at4 P0 p0 Q0 q0 P p Q q) eqn:E.
      * apply at4_true in E. destruct E as (-> & -> & -> & ->). exfalso. apply Hni. apply in_map_iff. exists (a', b', v').
        rewrite (carries_inj _ _ _ _ _ Ha Ha'), (carries_inj _ _ _ _ _ Hb Hb'). auto.
      * apply (Hv a' b' v'); [right; exact Hin|exact Ha'|exact Hb'].
    + intros P p Q q HP HQ Hno. destruct (at4 P0 p0 Q0 q0 P p Q q) eqn:E; [reflexivity|]. apply H0; [exact HP|exact HQ|]. intros a' b' v' [Heq|Hin] [Ha' Hb'].
      * injection Heq as <- <- <-. destruct (carries_fun _ _ _ _ _ _ Hs Ha Ha') as [<- <-]. destruct (carries_fun _ _ _ _ _ _ Hs Hb Hb') as [<- <-].
        unfold at4 in E. rewrite !Nat.eqb_refl in E. discriminate.
      * apply (Hno a' b' v' Hin). auto.
Qed.

(** the elements of one multipole *)
Definition of_multipole (J0 : Z) (els : list ObsSpec.element) : list (flab * flab * R) :=
  flat_map (fun e : ObsSpec.element => let '(a, b, J, v) := e in if (J =? J0)%Z then [(a, b, v)] else []) els.
Lemma multipole_in : forall J0 els a b v, In (a, b, v) (of_multipole J0 els) <-> In (a, b, J0, v) els.
Proof.
  intros J0 els a b v. unfold of_multipole. rewrite in_flat_map. split.
  - intros ([[[a' b'] J] v'] & Hin & H). destruct (Z.eqb_spec J J0) as [->|]; [|contradiction]. destruct H as [H|[]]. injection H as <- <- <-. exact Hin.
  - intros Hin. exists (a, b, J0, v). split; [exact Hin|]. rewrite Z.eqb_refl. left. reflexivity.
Qed.
Lemma multipole_once : forall J0 (els : list ObsSpec.element), NoDup (map fst els) -> NoDup (map fst (of_multipole J0 els)).
Proof.
  intros J0 els. induction els as [|[[[a b] J] v] els IH]; intros H; [constructor|]. cbn in H. inversion H; subst. unfold of_multipole in *. cbn [flat_map].
  destruct (Z.eqb_spec J J0) as [->|]; cbn [app]; [|apply IH; assumption]. cbn [map fst]. constructor; [|apply IH; assumption].
  intros Hin. apply in_map_iff in Hin. destruct Hin as ([[a' b'] v'] & E & Hin). cbn in E. injection E as -> ->.
  apply (multipole_in J0 els) in Hin. apply H2. apply in_map_iff. exists (a, b, J0, v'). auto.
Qed.
Lemma multipole_sum : forall J0 els (W : flab -> flab -> R), lsum (of_multipole J0 els) (fun x => let '(a, b, v) := x in W a b * v)
  = lsum els (fun e : ObsSpec.element => let '(a, b, J, v) := e in if (J =? J0)%Z then W a b * v else 0).
Proof.
  intros J0 els W. induction els as [|[[[a b] J] v] els IH]; [reflexivity|]. unfold of_multipole in *. cbn [flat_map]. rewrite lsum_app, IH. cbn [lsum].
  destruct (J =? J0)%Z; cbn [lsum]; ring.
Qed.

(** the stream that is read for a density *)
Definition stream_of (d : dens) (D : density) : dstream :=
  DStream (n_2J (d_bra d)) (n_g (d_bra d)) (n_n (d_bra d)) (n_2J (d_ket d)) (n_g (d_ket d)) (n_n (d_ket d))
    (ObDe (n_2J (d_bra d)) (n_2J (d_ket d)) (n_2M (d_bra d)) (n_2M (d_ket d)) (parity_change (d_bra d) (d_ket d)) (d_Tz0 d) D).
Theorem observable_value : forall w3j (sp : wspace R) (o : oper) f (d : dens) D, space_ok (forget sp) ->
  rf_q f = o_q o -> rf_sectors f = ObmModel.sectors_of (forget sp) (forget sp) (o_q o) -> op_ok (forget sp) (forget sp) (rf_sectors f) (rf_blocks f) ->
  (forall a b P p Q q, carries (forget sp) a P p -> carries (forget sp) b Q q -> entry (rf_sectors f) (rf_blocks f) P p Q q = o_el o a b) ->
  density_of (forget sp) (d_min d) (d_max d) (parity_change (d_bra d) (d_ket d)) (d_Tz0 d) (d_els d) D -> Z.even (n_2M (d_bra d) - n_2M (d_ket d)) = true ->
  (observed w3j o d -> observable w3j (forget sp) (operator_of f) (ds_od (stream_of d D)) = Ok (Num (rme o d)))
  /\ (~ observed w3j o d -> observable w3j (forget sp) (operator_of f) (ds_od (stream_of d D)) = Ok NaN).
Proof.
  intros w3j sp o f d D Hs Hq Hsec Hop Hel Hd HM. destruct (o_q o) as [[J0 g0] Tz0] eqn:Eq.
  assert (Eo : operator_of f = ObioModel.ObOp J0 g0 Tz0 (rf_sectors f) (rf_blocks f)) by (unfold operator_of; rewrite Hq; reflexivity).
  rewrite Eo. destruct Hd as [Hok Hloc Honce Hmin Hmax Hval Hzero].
  destruct (observable_ok w3j selection (forget sp) (ObioModel.ObOp J0 g0 Tz0 (rf_sectors f) (rf_blocks f)) (ds_od (stream_of d D)) HM Hsec Hop Hok) as [Hyes Hno].
  assert (Hdef : observable_defined w3j (ObioModel.ObOp J0 g0 Tz0 (rf_sectors f) (rf_blocks f)) (ds_od (stream_of d D)) <-> observed w3j o d).
  { unfold observable_defined, observed. rewrite Eq. cbn [op_g0 op_Tz0 op_J0 ds_od stream_of od_g0 od_Tz0 od_2Jb od_2Jk od_2Mb od_2Mk od_dens]. rewrite Hmin, Hmax. tauto. }
  split; [|intros H; apply Hno; tauto]. intros H. rewrite (Hyes (proj2 Hdef H)). unfold rme. rewrite Eq. f_equal. f_equal. cbn [op_J0]. f_equal.
  rewrite <- multipole_sum with (W := fun a b => IZR (fl_2j a + 1) * o_el o a b).
  cbn [op_sectors op_blocks ds_od stream_of od_dens].
  unfold observed in H. rewrite Eq in H. destruct H as (_ & _ & _ & _ & _ & HJ).
  rewrite <- (sum_elements (forget sp) (fun a b => IZR (fl_2j a + 1) * o_el o a b)
    (fun P p Q q => match nth_error (forget sp) P with Some x => IZR (ll_2j (fst x) + 1) | None => 0 end * entry (rf_sectors f) (rf_blocks f) P p Q q) Hs) with (F := density_entry D J0).
  - reflexivity.
  - intros a b P p Q q Ha Hb. rewrite (Hel a b P p Q q Ha Hb). destruct Ha as (s & x & _ & Hx & Hlab & _). rewrite Hx, Hlab. reflexivity.
  - apply multipole_once. exact Honce.
  - intros a b v Hin. apply multipole_in in Hin. rewrite Forall_forall in Hloc. destruct (Hloc _ Hin) as (_ & P & p & Q & q & Ha & Hb & _). eauto 8.
  - intros a b v P p Q q Hin Ha Hb. apply multipole_in in Hin. eapply Hval; eassumption.
  - intros P p Q q _ _ Hnone. apply Hzero; [exact HJ|]. intros a b v Hin. apply (Hnone a b v). apply multipole_in. exact Hin.
Qed.
