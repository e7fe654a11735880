(** The random access machine of InH2Stream: the data of a sector depend only on the file. *)
From Coq Require Import List ZArith Lia Bool.
From Verif Require Import Base BaseLemmas H2Model.
Import ListNotations.
Open Scope nat_scope.

Section MachineProofs.
  Variable E : env.
  Variable S : Type.
  Variable nsec : nat.
  Variable failed : S -> bool.
  Variable tell : S -> option nat * S.
  Variable seek : option nat -> S -> S.
  Variable rd : nat -> S -> outcome (mat (dbl E) * S).
  Variable sk : nat -> S -> outcome S.
  (** the state of a healthy stream positioned at the start of sector i *)
  Variable sa : nat -> S.

  Hypothesis H_rd : forall i m s', rd i (sa i) = Ok (m, s') -> failed s' = false -> s' = sa (i + 1).
  Hypothesis H_sk : forall i s', sk i (sa i) = Ok s' -> failed s' = false -> s' = sa (i + 1).
  Hypothesis H_rd_f : forall i s m s', failed s = true -> rd i s = Ok (m, s') -> failed s' = true.
  Hypothesis H_sk_f : forall i s s', failed s = true -> sk i s = Ok s' -> failed s' = true.
  Hypothesis H_seek_f : forall p s, failed s = true -> failed (seek p s) = true.
  Hypothesis H_tell : forall i, failed (sa i) = false ->
    (exists p, tell (sa i) = (Some p, sa i)
               /\ forall j, failed (sa j) = false -> seek (Some p) (sa j) = sa i)
    \/ failed (snd (tell (sa i))) = true.

  Notation instate := (instate S).

  Definition inv (st : instate) : Prop :=
    in_posns S st <> []
    /\ (failed (in_st S st) = true
        \/ (failed (in_st S st) = false
            /\ in_st S st = sa (in_si S st)
            /\ in_si S st < length (in_posns S st)
            /\ forall i, i < length (in_posns S st) ->
                 exists p, nth_error (in_posns S st) i = Some (Some p)
                           /\ failed (sa i) = false
                           /\ tell (sa i) = (Some p, sa i)
                           /\ forall j, failed (sa j) = false -> seek (Some p) (sa j) = sa i)).

  Lemma finish_inv : forall st s' st',
    inv st -> failed (in_st S st) = false ->
    (failed s' = false -> s' = sa (in_si S st + 1)) ->
    finish S failed tell (in_si S st) (in_posns S st) s' = Ok st' ->
    inv st' /\ in_si S st' = in_si S st + 1.
  Proof.
    intros [si ps s] s' st' [Hne [Hf|(Hs & Hsa & Hsi & Hall)]] Hnf Hs' H; simpl in *; [congruence|].
    unfold finish in H. inv_ok. apply negb_true_iff in H0.
    specialize (Hs' H0). subst s'.
    destruct (Nat.ltb_spec (length ps - 1) (si + 1)) as [Hlt|Hge].
    - assert (Hl : length ps = si + 1) by lia.
      destruct (tell (sa (si + 1))) as [p s2] eqn:Ht. inv_ok. simpl.
      split; [|reflexivity]. split; [simpl; destruct ps; discriminate|]. simpl.
      destruct (H_tell (si + 1) H0) as [(q & Hq & Hsk)|Hbad].
      + right. rewrite Ht in Hq. injection Hq as -> ->.
        split; [assumption|]. split; [reflexivity|]. split; [rewrite app_length; simpl; lia|].
        intros i Hi. rewrite app_length in Hi. simpl in Hi.
        destruct (Nat.eq_dec i (length ps)) as [->|Hn].
        * exists q. rewrite nth_error_app2 by lia. rewrite Nat.sub_diag. simpl.
          rewrite Hl. auto.
        * rewrite nth_error_app1 by lia. apply Hall. lia.
      + rewrite Ht in Hbad. simpl in Hbad. left. assumption.
    - inv_ok. simpl. split; [|reflexivity]. split; [assumption|]. simpl. right.
      split; [assumption|]. split; [reflexivity|]. split; [lia|]. assumption.
  Qed.

  Lemma skip_sector_inv : forall st st', inv st -> skip_sector S failed tell sk st = Ok st' ->
    inv st' /\ in_si S st' = in_si S st + 1 /\ failed (in_st S st) = false.
  Proof.
    intros st st' Hi H. unfold skip_sector in H. inv_ok.
    pose proof Hi as [Hne [Hf|(Hs & Hsa & Hsi & Hall)]].
    - pose proof (H_sk_f _ _ _ Hf H0) as Hx. unfold finish in H1. rewrite Hx in H1. discriminate.
    - destruct (finish_inv st x st' Hi Hs) as [HA HB]; auto.
      intros Hx. rewrite Hsa in H0. eapply H_sk; eauto.
  Qed.

  Lemma skip_n_inv : forall n st st', inv st -> skip_n S failed tell sk n st = Ok st' ->
    inv st' /\ in_si S st' = in_si S st + n.
  Proof.
    induction n as [|n IH]; intros st st' Hi H; simpl in H.
    - injection H as <-. split; [assumption|lia].
    - inv_ok. destruct (skip_sector_inv _ _ Hi H0) as (Hi' & Hsi & _).
      destruct (IH _ _ Hi' H1) as [HA HB]. split; [assumption|]. simpl in *. lia.
  Qed.

  Lemma seek_inv : forall i st st', inv st -> seek_to_sector S nsec failed tell seek sk i st = Ok st' ->
    inv st' /\ (failed (in_st S st') = false -> in_si S st' = i /\ in_st S st' = sa i).
  Proof.
    intros i st st' Hi H. unfold seek_to_sector in H.
    apply bind_ok in H. destruct H as (u & Hu & H0). apply cassert_ok in Hu. clear u.
    pose proof Hi as [Hne Hst].
    assert (Hl : 1 <= length (in_posns S st)) by (destruct (in_posns S st); [congruence|simpl; lia]).
    destruct (Nat.leb_spec i (length (in_posns S st) - 1)) as [Hle|Hgt].
    - apply bind_ok in H0. destruct H0 as (x & Hx & Hy). apply get_ok in Hx.
      injection Hy as <-. simpl.
      destruct Hst as [Hf|(Hs & Hsa & Hsi & Hall)].
      + assert (Hff := H_seek_f x _ Hf). split; [split; simpl; auto|]. intros. congruence.
      + destruct (Hall i ltac:(lia)) as (p & Hp & Hfi & Ht & Hsk).
        rewrite Hp in Hx. injection Hx as <-.
        rewrite Hsa. rewrite Hsk by (rewrite <- Hsa; assumption).
        split; [|auto]. split; simpl; [assumption|]. right.
        split; [assumption|]. split; [reflexivity|]. split; [lia|assumption].
    - destruct (skip_n_inv _ _ _ Hi H0) as [HA HB]. split; [assumption|].
      intros Hf. destruct HA as [_ [Hb|(Hs & Hsa & _)]]; [congruence|].
      destruct Hst as [Hff|(_ & _ & Hsi & _)].
      + destruct (i - in_si S st) as [|n] eqn:En; simpl in H0.
        * injection H0 as <-. congruence.
        * apply bind_ok in H0. destruct H0 as (z & Hz & _).
          destruct (skip_sector_inv _ _ Hi Hz) as (_ & _ & Hc). congruence.
      + assert (in_si S st' = i) by lia. split; [assumption|]. congruence.
  Qed.

  Lemma read_sector_det : forall i st m st', inv st ->
    read_sector E S nsec failed tell seek rd sk i st = Ok (m, st') ->
    inv st' /\ i < nsec /\ exists s', rd i (sa i) = Ok (m, s') /\ failed s' = false.
  Proof.
    intros i st m st' Hi H. unfold read_sector in H. inv_ok.
    match goal with
    | H : seek_to_sector _ _ _ _ _ _ i st = Ok _ |- _ =>
        pose proof (seek_inv _ _ _ Hi H) as [Hi1 Hs1];
        unfold seek_to_sector in H; apply bind_ok in H; destruct H as (u & Hu & _);
        apply cassert_ok in Hu; apply Nat.ltb_lt in Hu
    end.
    match goal with H : rd ?a ?b = Ok (m, ?c) |- _ => rename H into Hrd; set (st1s := b) in *; set (s' := c) in * end.
    match goal with H : finish _ _ _ _ _ _ = Ok _ |- _ => rename H into Hfin end.
    simpl in *.
    destruct (failed st1s) eqn:Ef.
    - pose proof (H_rd_f _ _ _ _ Ef Hrd) as Hx. unfold finish in Hfin. rewrite Hx in Hfin. discriminate.
    - destruct (Hs1 eq_refl) as [Hsi Hsa]. subst st1s. subst.
      assert (Hfs : failed s' = false).
      { unfold finish in Hfin. destruct (failed s'); [discriminate|reflexivity]. }
      split; [|split; [assumption|exists s'; rewrite Hsa in Hrd; split; assumption]].
      match type of Hi1 with inv ?st1 =>
        destruct (finish_inv st1 s' st' Hi1 Ef) as [HA _]; [|exact Hfin|assumption] end.
      simpl. intros. rewrite Hsa in Hrd. eapply H_rd; eauto.
  Qed.

  (** every matrix returned by any history is the one stored at that sector of the file *)
  Lemma read_history_det : forall h st ms st', inv st ->
    read_history E S nsec failed tell seek rd sk h st = Ok (ms, st') ->
    inv st' /\ Forall2 (fun i m => i < nsec /\ exists s', rd i (sa i) = Ok (m, s') /\ failed s' = false) h ms.
  Proof.
    induction h as [|i h IH]; intros st ms st' Hi H; simpl in H.
    - inv_ok. split; [assumption|constructor].
    - inv_ok.
      match goal with H : read_sector _ _ _ _ _ _ _ _ i st = Ok _ |- _ =>
        destruct (read_sector_det _ _ _ _ Hi H) as (Hi1 & Hm) end.
      match goal with H : read_history _ _ _ _ _ _ _ _ h _ = Ok _ |- _ =>
        destruct (IH _ _ _ Hi1 H) as (Hi2 & Hms) end.
      split; [assumption|]. constructor; assumption.
  Qed.

  (** ** progress: if every sector can be read and skipped from its own position, every history
      succeeds *)
  Variable mm : nat -> mat (dbl E).
  Hypothesis P_rd : forall i, i < nsec -> rd i (sa i) = Ok (mm i, sa (i + 1)).
  Hypothesis P_sk : forall i, i < nsec -> sk i (sa i) = Ok (sa (i + 1)).
  Hypothesis P_nf : forall i, i <= nsec -> failed (sa i) = false.
  Hypothesis P_tell : forall i, i <= nsec -> exists p, tell (sa i) = (Some p, sa i)
               /\ forall j, failed (sa j) = false -> seek (Some p) (sa j) = sa i.

  Definition pinv (st : instate) : Prop :=
    in_si S st <= nsec /\ in_st S st = sa (in_si S st)
    /\ in_si S st < length (in_posns S st)
    /\ length (in_posns S st) <= nsec + 1
    /\ forall i, i < length (in_posns S st) ->
         exists p, nth_error (in_posns S st) i = Some (Some p)
                   /\ forall j, failed (sa j) = false -> seek (Some p) (sa j) = sa i.

  Lemma finish_prog : forall st, pinv st -> in_si S st < nsec ->
    exists st', finish S failed tell (in_si S st) (in_posns S st) (sa (in_si S st + 1)) = Ok st'
                /\ pinv st' /\ in_si S st' = in_si S st + 1.
  Proof.
    intros [si ps s] (H1 & H2 & H3 & H4 & H5) Hlt; simpl in *. unfold finish.
    rewrite P_nf by lia. cbn [negb check bind].
    destruct (Nat.ltb_spec (length ps - 1) (si + 1)) as [Hl|Hge].
    - destruct (P_tell (si + 1) ltac:(lia)) as (p & Hp & Hsk). rewrite Hp.
      eexists; split; [reflexivity|]. split; [|reflexivity].
      assert (length ps = si + 1) by lia.
      repeat split; simpl; try rewrite app_length; simpl; try lia.
      intros i Hi. destruct (Nat.eq_dec i (length ps)) as [->|Hn].
      + exists p. rewrite nth_error_app2 by lia. rewrite Nat.sub_diag. simpl. rewrite H. auto.
      + rewrite nth_error_app1 by lia. apply H5. lia.
    - eexists; split; [reflexivity|]. split; [|reflexivity].
      repeat split; simpl; try lia. assumption.
  Qed.

  Lemma skip_n_prog : forall n st, pinv st -> in_si S st + n <= nsec ->
    exists st', skip_n S failed tell sk n st = Ok st' /\ pinv st' /\ in_si S st' = in_si S st + n.
  Proof.
    induction n as [|n IH]; intros st Hp Hn; simpl.
    - exists st. split; [reflexivity|]. split; [assumption|lia].
    - unfold skip_sector. pose proof Hp as (_ & H2 & _). rewrite H2, P_sk by lia. cbn [bind].
      destruct (finish_prog st Hp ltac:(lia)) as (st1 & Hf & Hp1 & Hs1). rewrite Hf. cbn [bind].
      destruct (IH st1 Hp1 ltac:(lia)) as (st2 & Hk & Hp2 & Hs2).
      exists st2. split; [assumption|]. split; [assumption|lia].
  Qed.

  Lemma seek_prog : forall i st, pinv st -> i < nsec ->
    exists st', seek_to_sector S nsec failed tell seek sk i st = Ok st' /\ pinv st' /\ in_si S st' = i.
  Proof.
    intros i st Hp Hi. unfold seek_to_sector.
    destruct (Nat.ltb_spec i nsec); [|lia]. cbn [cassert bind].
    pose proof Hp as (H1 & H2 & H3 & H4 & H5).
    destruct (Nat.leb_spec i (length (in_posns S st) - 1)) as [Hle|Hgt].
    - destruct (H5 i ltac:(lia)) as (p & Hn & Hsk). rewrite Hn. cbn [get bind].
      eexists; split; [reflexivity|]. split; [|reflexivity].
      repeat split; simpl; try lia; [|assumption].
      rewrite H2. apply Hsk. apply P_nf. assumption.
    - destruct (skip_n_prog (i - in_si S st) st Hp ltac:(lia)) as (st' & Hk & Hp' & Hs').
      exists st'. split; [assumption|]. split; [assumption|lia].
  Qed.

  Lemma read_sector_prog : forall i st, pinv st -> i < nsec ->
    exists st', read_sector E S nsec failed tell seek rd sk i st = Ok (mm i, st') /\ pinv st'.
  Proof.
    intros i st Hp Hi. unfold read_sector.
    destruct (seek_prog i st Hp Hi) as (st1 & Hs & Hp1 & Hi1). rewrite Hs. cbn [bind].
    pose proof Hp1 as (_ & H2 & _). rewrite H2, Hi1, P_rd by assumption. cbn [bind].
    rewrite <- Hi1. destruct (finish_prog st1 Hp1 ltac:(lia)) as (st2 & Hf & Hp2 & _).
    rewrite Hf. cbn [bind]. eauto.
  Qed.

  Lemma read_history_prog : forall h st, pinv st -> Forall (fun i => i < nsec) h ->
    exists st', read_history E S nsec failed tell seek rd sk h st = Ok (map mm h, st').
  Proof.
    induction h as [|i h IH]; intros st Hp Hh; simpl; [eauto|].
    inversion Hh; subst.
    destruct (read_sector_prog i st Hp ltac:(assumption)) as (st1 & Hr & Hp1). rewrite Hr. cbn [bind].
    destruct (IH st1 Hp1 ltac:(assumption)) as (st2 & Hr2). rewrite Hr2. cbn [bind]. eauto.
  Qed.
End MachineProofs.
