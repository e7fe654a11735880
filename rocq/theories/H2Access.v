(** Random access to H2 files: the results of ReadSector depend only on the file. *)
From Coq Require Import String List ZArith Lia Bool.
From Verif Require Import Base BaseLemmas H2Model H2Spec H2Elements H2Sectors H2Machine.
Import ListNotations.
Open Scope nat_scope.

Section Access.
Variable E : env.
Notation D := (dbl E).

(** * File contents are constant while the header is read *)

Lemma rd_i32_data : forall s x s', rd_i32 s = Ok (x, s') -> b_data s' = b_data s.
Proof.
  intros s x s' H. unfold rd_i32 in H. destruct (b_read 4 s) as [[bs|] s1] eqn:Hr; [|discriminate].
  injection H as <- <-. destruct (b_read_bad _ _ _ _ Hr) as [Hf He].
  rewrite (bst_eta s Hf He) in Hr. apply b_read_good in Hr. destruct Hr as (-> & _). reflexivity.
Qed.
Lemma rd_f32_data : forall s x s', rd_f32 s = Ok (x, s') -> b_data s' = b_data s.
Proof.
  intros s x s' H. unfold rd_f32 in H. destruct (b_read 4 s) as [[bs|] s1] eqn:Hr; [|discriminate].
  injection H as <- <-. destruct (b_read_bad _ _ _ _ Hr) as [Hf He].
  rewrite (bst_eta s Hf He) in Hr. apply b_read_good in Hr. destruct Hr as (-> & _). reflexivity.
Qed.
Lemma rd_i64_data : forall s x s', rd_i64 s = Ok (x, s') -> b_data s' = b_data s.
Proof.
  intros s x s' H. unfold rd_i64 in H. destruct (b_read 8 s) as [[bs|] s1] eqn:Hr; [|discriminate].
  injection H as <- <-. destruct (b_read_bad _ _ _ _ Hr) as [Hf He].
  rewrite (bst_eta s Hf He) in Hr. apply b_read_good in Hr. destruct Hr as (-> & _). reflexivity.
Qed.
Lemma verify_data : forall v s s', verify v s = Ok s' -> b_data s' = b_data s.
Proof. intros v s s' H. apply verify_ok in H. destruct H as (_ & _ & -> & _). reflexivity. Qed.
Lemma rd_many_data : forall A (rd : bstate -> outcome (A * bstate)),
  (forall s x s', rd s = Ok (x, s') -> b_data s' = b_data s) ->
  forall n s xs s', rd_many rd n s = Ok (xs, s') -> b_data s' = b_data s.
Proof.
  intros A rd Hrd. induction n as [|n IH]; intros s xs s' H; simpl in H; inv_ok; [reflexivity|].
  repeat match goal with
  | H : rd _ = Ok _ |- _ => apply Hrd in H
  | H : rd_many rd n _ = Ok _ |- _ => apply IH in H
  end. congruence.
Qed.
Definition rd_many_i32 := rd_many_data Z rd_i32 rd_i32_data.
Definition rd_many_f32 := rd_many_data Z rd_f32 rd_f32_data.

Ltac data_step :=
  repeat match goal with
  | H : rd_i32 _ = Ok _ |- _ => apply rd_i32_data in H
  | H : rd_f32 _ = Ok _ |- _ => apply rd_f32_data in H
  | H : rd_i64 _ = Ok _ |- _ => apply rd_i64_data in H
  | H : verify _ _ = Ok _ |- _ => apply verify_data in H
  | H : rd_many rd_i32 _ _ = Ok _ |- _ => apply rd_many_i32 in H
  | H : rd_many rd_f32 _ _ = Ok _ |- _ => apply rd_many_f32 in H
  end.

Lemma rd_record_data : forall A (rd : bstate -> outcome (A * bstate)),
  (forall s x s', rd s = Ok (x, s') -> b_data s' = b_data s) ->
  forall n s xs s', rd_record rd n s = Ok (xs, s') -> b_data s' = b_data s.
Proof.
  intros A rd Hrd n s xs s' H. unfold rd_record in H. inv_ok. data_step.
  match goal with H : rd_many rd _ _ = Ok _ |- _ => apply (rd_many_data _ rd Hrd) in H end.
  congruence.
Qed.
Lemma rd_species_data : forall sp n s os s', rd_species_bin_15099 E sp n s = Ok (os, s') -> b_data s' = b_data s.
Proof.
  intros sp n s os s' H. unfold rd_species_bin_15099 in H. inv_ok.
  repeat match goal with
  | H : rd_record rd_i32 _ _ = Ok _ |- _ => apply (rd_record_data _ _ rd_i32_data) in H
  | H : rd_record rd_f32 _ _ = Ok _ |- _ => apply (rd_record_data _ _ rd_f32_data) in H
  end. congruence.
Qed.

Lemma rd_header_bin_data : forall f s ix s',
  (match f with V0 => rd_header_bin_0 E s | V15099 => rd_header_bin_15099 E s
   | V15200 => rd_header_bin_15200 E s end) = Ok (ix, s') -> b_data s' = b_data s.
Proof.
  intros [] s ix s' H.
  - unfold rd_header_bin_0 in H. inv_ok. data_step. congruence.
  - unfold rd_header_bin_15099 in H. inv_ok. data_step.
    repeat match goal with H : rd_species_bin_15099 _ _ _ _ = Ok _ |- _ => apply rd_species_data in H end.
    congruence.
  - unfold rd_header_bin_15200 in H. inv_ok. data_step. congruence.
Qed.

(** after opening: either a failed stream, or positioned at the first sector *)
Lemma open_bin_state : forall d st, open_bin E d = Ok st ->
  exists p, is_state E bstate st = InSt bstate 0 [Some p] (BSt d p false false)
  \/ (in_posns bstate (is_state E bstate st) <> []
      /\ b_fail (in_st bstate (is_state E bstate st)) = true).
Proof.
  intros d st H. unfold open_bin in H.
  apply bind_ok in H. destruct H as (s1 & H1 & H).
  apply bind_ok in H. destruct H as ([c s2] & H2 & H).
  apply bind_ok in H. destruct H as (s3 & H3 & H).
  apply bind_ok in H. destruct H as ([] & H4 & H).
  apply bind_ok in H. destruct H as (f & H5 & H).
  apply bind_ok in H. destruct H as ([ix s4] & H6 & H).
  apply rd_header_bin_data in H6. apply verify_data in H1. apply rd_i32_data in H2. apply verify_data in H3.
  simpl in H1.
  unfold b_tell in H. destruct (b_fail s4 || b_eof s4) eqn:Ef.
  - injection H as <-. exists 0. right. simpl. split; [discriminate|reflexivity].
  - apply orb_false_iff in Ef. destruct Ef as [Ef Ee]. injection H as <-.
    exists (b_pos s4). left. simpl. f_equal.
    rewrite (bst_eta s4 Ef Ee) at 1. f_equal. congruence.
Qed.

Section Bin.
Variable f : format.
Variable ix : indexing E.
Variable d : list Z.
Variable p0 : nat.

Definition tp_bin (i : nat) : nat := p0 + list_sum (map (sec_bytes E f ix) (seq 0 i)).
Definition sa_bin (i : nat) : bstate := BSt d (tp_bin i) false false.

Lemma tp_bin_S : forall i, tp_bin (i + 1) = tp_bin i + sec_bytes E f ix i.
Proof.
  intros i. unfold tp_bin. rewrite seq_app, map_app, list_sum_app. simpl. lia.
Qed.

Lemma bin_rd : forall i m s', rd_bin E f ix i (sa_bin i) = Ok (m, s') -> b_fail s' = false -> s' = sa_bin (i + 1).
Proof.
  intros i m s' H Hf. destruct (rd_bin_pos _ _ _ _ _ _ _ _ H Hf) as [-> _].
  unfold sa_bin. rewrite tp_bin_S. reflexivity.
Qed.
Lemma bin_sk : forall i s', sk_bin E f ix i (sa_bin i) = Ok s' -> b_fail s' = false -> s' = sa_bin (i + 1).
Proof.
  intros i s' H Hf. rewrite (sk_bin_pos _ _ _ _ _ _ _ H). unfold sa_bin. rewrite tp_bin_S. reflexivity.
Qed.
Lemma bin_seek_f : forall p s, b_fail s = true -> b_fail (b_seek p s) = true.
Proof. intros p s H. unfold b_seek. rewrite H. reflexivity. Qed.
Lemma bin_tell : forall i, exists p, b_tell (sa_bin i) = (Some p, sa_bin i)
  /\ forall j, b_fail (sa_bin j) = false -> b_seek (Some p) (sa_bin j) = sa_bin i.
Proof. intros i. exists (tp_bin i). split; reflexivity. Qed.

Definition inv_bin := inv bstate b_fail b_tell b_seek sa_bin.

Lemma inv_bin_init : inv_bin (InSt bstate 0 [Some p0] (BSt d p0 false false)).
Proof.
  assert (H0 : sa_bin 0 = BSt d p0 false false).
  { unfold sa_bin, tp_bin. simpl. rewrite Nat.add_0_r. reflexivity. }
  split; [discriminate|]. right. simpl. split; [reflexivity|]. split; [symmetry; exact H0|].
  split; [lia|]. intros i Hi. assert (i = 0) by lia. subst i.
  exists p0. split; [reflexivity|]. rewrite H0. split; [reflexivity|]. split; [reflexivity|].
  intros j Hj. reflexivity.
Qed.

Definition bin_det := read_history_det E bstate (length (ix_sectors E ix)) b_fail b_tell b_seek
  (rd_bin E f ix) (sk_bin E f ix) sa_bin bin_rd bin_sk
  (rd_bin_fail E f ix) (sk_bin_fail E f ix) bin_seek_f
  (fun i _ => or_introl (bin_tell i)).

Lemma bin_prog : forall mm,
  (forall i, i < length (ix_sectors E ix) -> rd_bin E f ix i (sa_bin i) = Ok (mm i, sa_bin (i + 1))) ->
  forall h, Forall (fun i => i < length (ix_sectors E ix)) h ->
  exists st', read_history E bstate (length (ix_sectors E ix)) b_fail b_tell b_seek (rd_bin E f ix) (sk_bin E f ix) h
    (InSt bstate 0 [Some p0] (BSt d p0 false false)) = Ok (map mm h, st').
Proof.
  intros mm Hmm h Hh.
  apply (read_history_prog E bstate (length (ix_sectors E ix)) b_fail b_tell b_seek
    (rd_bin E f ix) (sk_bin E f ix) sa_bin mm Hmm).
  - intros i Hi. eapply rd_sk_bin; [apply Hmm; assumption|reflexivity].
  - intros. reflexivity.
  - intros. apply bin_tell.
  - pose proof inv_bin_init as [_ [Hf|(Hf & H1 & H2 & H3)]]; [discriminate|].
    simpl in *. repeat split; simpl; try lia; [assumption|].
    intros i Hi. destruct (H3 i Hi) as (p & Hp & _ & _ & Hsk). eauto.
  - assumption.
Qed.
End Bin.

Lemma read_history_failed_bin : forall f ix h st ms st',
  b_fail (in_st bstate st) = true -> in_posns bstate st <> [] ->
  read_history E bstate (length (ix_sectors E ix)) b_fail b_tell b_seek (rd_bin E f ix) (sk_bin E f ix) h st = Ok (ms, st') ->
  h = [].
Proof.
  intros f ix h st ms st' Hf Hne H. destruct h as [|i h]; [reflexivity|]. exfalso.
  simpl in H. apply bind_ok in H. destruct H as ([m st1] & H & _).
  unfold read_sector in H. apply bind_ok in H. destruct H as (st2 & Hsk & H).
  apply bind_ok in H. destruct H as ([m' s'] & Hrd & H).
  apply bind_ok in H. destruct H as (st3 & Hfin & _).
  unfold finish in Hfin. apply bind_ok in Hfin. destruct Hfin as ([] & Hc & _).
  apply check_ok in Hc. apply negb_true_iff in Hc.
  assert (Hf2 : b_fail (in_st bstate st2) = true).
  { unfold seek_to_sector in Hsk. apply bind_ok in Hsk. destruct Hsk as ([] & _ & Hsk).
    destruct (Nat.leb i (length (in_posns bstate st) - 1)).
    - apply bind_ok in Hsk. destruct Hsk as (p & _ & Hsk). injection Hsk as <-. simpl.
      apply bin_seek_f. assumption.
    - destruct (i - in_si bstate st) as [|n]; simpl in Hsk.
      + injection Hsk as <-. assumption.
      + apply bind_ok in Hsk. destruct Hsk as (st4 & H4 & _). exfalso.
        unfold skip_sector in H4. apply bind_ok in H4. destruct H4 as (s5 & H5 & H4).
        apply (sk_bin_fail E f ix _ _ _ Hf) in H5. unfold finish in H4. rewrite H5 in H4. discriminate. }
  rewrite (rd_bin_fail E f ix _ _ _ _ Hf2 Hrd) in Hc. discriminate.
Qed.

(** * Text *)

Lemma get_lines_file : forall n s, t_file E (snd (get_lines E n s)) = t_file E s.
Proof.
  induction n as [|n IH]; intros s; simpl; [reflexivity|].
  pose proof (t_GetLine_file E s) as H. destruct (t_GetLine E s) as [l s1]. simpl in H.
  specialize (IH s1). destruct (get_lines E n s1) as [ls s2]. simpl in *. congruence.
Qed.

Ltac file_step :=
  repeat match goal with
  | H : context [t_GetLine E ?s] |- _ =>
      let G := fresh "G" in
      pose proof (t_GetLine_file E s) as G;
      destruct (t_GetLine E s); cbn [snd] in G
  | H : context [get_lines E ?n ?s] |- _ =>
      let G := fresh "G" in
      pose proof (get_lines_file n s) as G;
      destruct (get_lines E n s); cbn [snd] in G
  | H : bind _ _ = Ok _ |- _ =>
      let x := fresh "x" in let H1 := fresh "H" in let H2 := fresh "H" in
      apply bind_ok in H; destruct H as (x & H1 & H2);
      try match type of x with prod _ _ => destruct x | unit => destruct x end
  | H : Ok _ = Ok _ |- _ => injection H; clear H; intros; subst
  end.

Lemma rd_orbitals_file : forall f s os s', rd_orbitals_txt E f s = Ok (os, s') -> t_file E s' = t_file E s.
Proof. intros f s os s' H. unfold rd_orbitals_txt in H. file_step. congruence. Qed.

Lemma rd_header_txt_file : forall f s ix s',
  (match f with V0 => rd_header_txt_0 E s | V15099 => rd_header_txt_15099 E s
   | V15200 => rd_header_txt_15200 E s end) = Ok (ix, s') -> t_file E s' = t_file E s.
Proof.
  intros [] s ix s' H.
  - unfold rd_header_txt_0 in H. file_step. congruence.
  - unfold rd_header_txt_15099 in H. file_step.
    match goal with H : rd_orbitals_txt _ _ _ = Ok _ |- _ => apply rd_orbitals_file in H end. congruence.
  - unfold rd_header_txt_15200 in H. file_step.
    match goal with H : rd_orbitals_txt _ _ _ = Ok _ |- _ => apply rd_orbitals_file in H end. congruence.
Qed.

Lemma tst_eta : forall s, t_fail E s = false -> t_eof E s = false -> s = TSt E (t_file E s) (t_pos E s) false false.
Proof. intros [d p e f]; simpl; intros -> ->; reflexivity. Qed.

Lemma open_txt_state : forall file st, open_txt E file = Ok st ->
  exists p, is_state E (tstate E) st = InSt (tstate E) 0 [Some p] (TSt E file p false false)
  \/ (in_posns (tstate E) (is_state E (tstate E) st) <> []
      /\ t_fail E (in_st (tstate E) (is_state E (tstate E) st)) = true).
Proof.
  intros file st H. unfold open_txt in H.
  pose proof (t_getline_file E (TSt E file 0 false false)) as G.
  destruct (t_getline E (TSt E file 0 false false)) as [l s1]. simpl in G.
  apply bind_ok in H. destruct H as ([c l2] & H2 & H).
  apply bind_ok in H. destruct H as ([] & H4 & H).
  apply bind_ok in H. destruct H as (f & H5 & H).
  apply bind_ok in H. destruct H as ([ix s4] & H6 & H).
  apply rd_header_txt_file in H6.
  unfold t_tell in H. destruct (t_fail E s4 || t_eof E s4) eqn:Ef.
  - injection H as <-. exists 0. right. simpl. split; [discriminate|reflexivity].
  - apply orb_false_iff in Ef. destruct Ef as [Ef Ee]. injection H as <-.
    exists (t_pos E s4). left. simpl. f_equal.
    rewrite (tst_eta s4 Ef Ee) at 1. f_equal. congruence.
Qed.

(** with a final newline, eofbit only ever comes with failbit *)
Definition eof_fails (s : tstate E) : Prop := t_eof E s = true -> t_fail E s = true.

Lemma t_getline_eof : forall s, f_nl E (t_file E s) = true -> eof_fails s -> eof_fails (snd (t_getline E s)).
Proof.
  intros s Hnl He. unfold t_getline.
  destruct (t_fail E s || t_eof E s) eqn:Ef; [intros _; reflexivity|].
  destruct (nth_error _ _); simpl; intros H; simpl in *; [|reflexivity].
  rewrite Hnl, andb_false_r in H. discriminate.
Qed.
Lemma t_GetLine_fuel_eof : forall n s, f_nl E (t_file E s) = true -> eof_fails s -> eof_fails (snd (t_GetLine_fuel E n s)).
Proof.
  induction n as [|n IH]; intros s Hnl He; simpl; pose proof (t_getline_eof s Hnl He) as G;
    pose proof (t_getline_file E s) as F;
    destruct (t_getline E s) as [[|w l] s1]; simpl in *; try assumption.
  destruct (t_fail E s1); simpl; [assumption|]. apply IH; [congruence|assumption].
Qed.
Lemma skip_lines_eof : forall n s, f_nl E (t_file E s) = true -> eof_fails s -> eof_fails (skip_lines E n s).
Proof.
  induction n as [|n IH]; intros s Hnl He; simpl; [assumption|].
  apply IH; [rewrite t_GetLine_file; assumption|]. apply t_GetLine_fuel_eof; assumption.
Qed.

Section Txt.
Variable f : format.
Variable ix : indexing E.
Variable file : tfile E.
Variable p0 : nat.
Hypothesis Hcan : Forall canonical_sector (ix_sectors E ix).

Definition n_lines (i : nat) : nat := list_sum (map (sec_lines E ix) (seq 0 i)).
Definition sa_txt (i : nat) : tstate E := skip_lines E (n_lines i) (TSt E file p0 false false).

Lemma n_lines_S : forall i, n_lines (i + 1) = n_lines i + sec_lines E ix i.
Proof. intros i. unfold n_lines. rewrite seq_app, map_app, list_sum_app. simpl. lia. Qed.
Lemma sa_txt_S : forall i, sa_txt (i + 1) = skip_lines E (sec_lines E ix i) (sa_txt i).
Proof. intros i. unfold sa_txt. rewrite n_lines_S. apply skip_lines_add. Qed.

Lemma txt_rd : forall i m s', rd_txt E f ix i (sa_txt i) = Ok (m, s') -> t_fail E s' = false -> s' = sa_txt (i + 1).
Proof.
  intros i m s' H _. rewrite sa_txt_S. eapply rd_txt_pos; eassumption.
Qed.
Lemma txt_sk : forall i s', sk_txt E f ix i (sa_txt i) = Ok s' -> t_fail E s' = false -> s' = sa_txt (i + 1).
Proof. intros i s' H _. rewrite sa_txt_S. eapply sk_txt_pos; eassumption. Qed.
Lemma txt_rd_f : forall i s m s', t_fail E s = true -> rd_txt E f ix i s = Ok (m, s') -> t_fail E s' = true.
Proof.
  intros i s m s' Hf H. apply rd_txt_pos in H; [|assumption]. subst s'. apply skip_lines_fail. assumption.
Qed.
Lemma txt_sk_f : forall i s s', t_fail E s = true -> sk_txt E f ix i s = Ok s' -> t_fail E s' = true.
Proof.
  intros i s s' Hf H. apply sk_txt_pos in H. subst s'. apply skip_lines_fail. assumption.
Qed.
Lemma txt_seek_f : forall p s, t_fail E s = true -> t_fail E (t_seek E p s) = true.
Proof. intros p s H. unfold t_seek. rewrite H. reflexivity. Qed.

Lemma sa_txt_file : forall i, t_file E (sa_txt i) = file.
Proof. intros. unfold sa_txt. rewrite skip_lines_file. reflexivity. Qed.

Lemma txt_tell_good : forall i, t_fail E (sa_txt i) = false -> t_eof E (sa_txt i) = false ->
  exists p, t_tell E (sa_txt i) = (Some p, sa_txt i)
  /\ forall j, t_fail E (sa_txt j) = false -> t_seek E (Some p) (sa_txt j) = sa_txt i.
Proof.
  intros i Hf He. exists (t_pos E (sa_txt i)). unfold t_tell. rewrite Hf, He. split; [reflexivity|].
  intros j Hj. unfold t_seek. rewrite Hj, sa_txt_file.
  rewrite (tst_eta (sa_txt i) Hf He) at 2. rewrite sa_txt_file. reflexivity.
Qed.

Lemma txt_tell : forall i, t_fail E (sa_txt i) = false ->
  (exists p, t_tell E (sa_txt i) = (Some p, sa_txt i)
     /\ forall j, t_fail E (sa_txt j) = false -> t_seek E (Some p) (sa_txt j) = sa_txt i)
  \/ t_fail E (snd (t_tell E (sa_txt i))) = true.
Proof.
  intros i Hf. destruct (t_eof E (sa_txt i)) eqn:He.
  - right. unfold t_tell. rewrite Hf, He. reflexivity.
  - left. apply txt_tell_good; assumption.
Qed.

Definition inv_txt := inv (tstate E) (t_fail E) (t_tell E) (t_seek E) sa_txt.

Lemma inv_txt_init : inv_txt (InSt (tstate E) 0 [Some p0] (TSt E file p0 false false)).
Proof.
  assert (H0 : sa_txt 0 = TSt E file p0 false false) by reflexivity.
  split; [discriminate|]. right. simpl. split; [reflexivity|]. split; [symmetry; exact H0|].
  split; [lia|]. intros i Hi. assert (i = 0) by lia. subst i.
  destruct (txt_tell_good 0 eq_refl eq_refl) as (p & Hp & Hsk).
  exists p. rewrite H0 in Hp. unfold t_tell in Hp. simpl in Hp. injection Hp as <-.
  split; [reflexivity|]. rewrite H0. split; [reflexivity|]. split; [reflexivity|]. exact Hsk.
Qed.

Definition txt_det := read_history_det E (tstate E) (length (ix_sectors E ix)) (t_fail E) (t_tell E) (t_seek E)
  (rd_txt E f ix) (sk_txt E f ix) sa_txt txt_rd txt_sk txt_rd_f txt_sk_f txt_seek_f txt_tell.

Lemma txt_prog : f_nl E file = true -> forall mm,
  (forall i, i < length (ix_sectors E ix) ->
     rd_txt E f ix i (sa_txt i) = Ok (mm i, sa_txt (i + 1)) /\ t_fail E (sa_txt (i + 1)) = false) ->
  forall h, Forall (fun i => i < length (ix_sectors E ix)) h ->
  exists st', read_history E (tstate E) (length (ix_sectors E ix)) (t_fail E) (t_tell E) (t_seek E) (rd_txt E f ix) (sk_txt E f ix) h
    (InSt (tstate E) 0 [Some p0] (TSt E file p0 false false)) = Ok (map mm h, st').
Proof.
  intros Hnl mm Hmm h Hh.
  assert (Hnf : forall i, i <= length (ix_sectors E ix) -> t_fail E (sa_txt i) = false).
  { intros [|i] Hi; [reflexivity|]. replace (S i) with (i + 1) by lia. apply Hmm. lia. }
  assert (Hne : forall i, i <= length (ix_sectors E ix) -> t_eof E (sa_txt i) = false).
  { intros i Hi. destruct (t_eof E (sa_txt i)) eqn:He; [|reflexivity].
    assert (eof_fails (sa_txt i)) by (apply skip_lines_eof; [assumption|discriminate]).
    rewrite <- (Hnf i Hi). symmetry. auto. }
  apply (read_history_prog E (tstate E) (length (ix_sectors E ix)) (t_fail E) (t_tell E) (t_seek E)
    (rd_txt E f ix) (sk_txt E f ix) sa_txt mm).
  - intros i Hi. apply Hmm. assumption.
  - intros i Hi. rewrite sa_txt_S. eapply rd_sk_txt. apply Hmm. assumption.
  - assumption.
  - intros i Hi. apply txt_tell_good; auto.
  - pose proof inv_txt_init as [_ [Hf|(Hf & H1 & H2 & H3)]]; [discriminate|].
    simpl in *. repeat split; simpl; try lia.
    intros i Hi. destruct (H3 i Hi) as (p & Hp & _ & _ & Hsk). eauto.
  - assumption.
Qed.

Lemma read_history_failed_txt : forall h st ms st',
  t_fail E (in_st (tstate E) st) = true -> in_posns (tstate E) st <> [] ->
  read_history E (tstate E) (length (ix_sectors E ix)) (t_fail E) (t_tell E) (t_seek E) (rd_txt E f ix) (sk_txt E f ix) h st = Ok (ms, st') ->
  h = [].
Proof.
  intros h st ms st' Hf Hne H. destruct h as [|i h]; [reflexivity|]. exfalso.
  simpl in H. apply bind_ok in H. destruct H as ([m st1] & H & _).
  unfold read_sector in H. apply bind_ok in H. destruct H as (st2 & Hsk & H).
  apply bind_ok in H. destruct H as ([m' s'] & Hrd & H).
  apply bind_ok in H. destruct H as (st3 & Hfin & _).
  unfold finish in Hfin. apply bind_ok in Hfin. destruct Hfin as ([] & Hc & _).
  apply check_ok in Hc. apply negb_true_iff in Hc.
  assert (Hf2 : t_fail E (in_st (tstate E) st2) = true).
  { unfold seek_to_sector in Hsk. apply bind_ok in Hsk. destruct Hsk as ([] & _ & Hsk).
    destruct (Nat.leb i (length (in_posns (tstate E) st) - 1)).
    - apply bind_ok in Hsk. destruct Hsk as (p & _ & Hsk). injection Hsk as <-. simpl.
      apply txt_seek_f. assumption.
    - destruct (i - in_si (tstate E) st) as [|n]; simpl in Hsk.
      + injection Hsk as <-. assumption.
      + apply bind_ok in Hsk. destruct Hsk as (st4 & H4 & _). exfalso.
        unfold skip_sector in H4. apply bind_ok in H4. destruct H4 as (s5 & H5 & H4).
        apply (txt_sk_f _ _ _ Hf) in H5. unfold finish in H4. rewrite H5 in H4. discriminate. }
  rewrite (txt_rd_f _ _ _ _ Hf2 Hrd) in Hc. discriminate.
Qed.
End Txt.

(** * Theorems about histories of ReadSector calls *)

Lemma Forall2_nth_l : forall A B (P : A -> B -> Prop) l1 l2 n a, Forall2 P l1 l2 ->
  nth_error l1 n = Some a -> exists b, nth_error l2 n = Some b /\ P a b.
Proof.
  induction l1 as [|x l1 IH]; intros l2 [|n] a HF Hn; try discriminate; inversion HF; subst.
  - injection Hn as ->. simpl. eauto.
  - simpl. apply (IH _ n); assumption.
Qed.

Lemma bin_history_consistent : forall d st h1 h2 ms1 ms2 st1 st2 a b i,
  open_bin E d = Ok st ->
  reads_bin E st h1 = Ok (ms1, st1) -> reads_bin E st h2 = Ok (ms2, st2) ->
  nth_error h1 a = Some i -> nth_error h2 b = Some i ->
  exists m, nth_error ms1 a = Some m /\ nth_error ms2 b = Some m.
Proof.
  intros d st h1 h2 ms1 ms2 st1 st2 a b i Ho H1 H2 Ha Hb.
  unfold reads_bin in H1, H2.
  apply bind_ok in H1. destruct H1 as ([n1 u1] & H1 & E1). injection E1 as E1a E1b; subst.
  apply bind_ok in H2. destruct H2 as ([n2 u2] & H2 & E2). injection E2 as E2a E2b; subst.
  destruct (open_bin_state _ _ Ho) as (p & [Hs|[Hne Hf]]).
  - rewrite Hs in H1, H2.
    pose proof (inv_bin_init (is_fmt E bstate st) (is_ix E bstate st) d p) as Hi.
    apply (bin_det _ _ _ _ _ _ _ _ Hi) in H1. destruct H1 as [_ H1].
    apply (bin_det _ _ _ _ _ _ _ _ Hi) in H2. destruct H2 as [_ H2].
    destruct (Forall2_nth_l _ _ _ _ _ _ _ H1 Ha) as (m1 & Hm1 & _ & s1 & Hr1 & _).
    destruct (Forall2_nth_l _ _ _ _ _ _ _ H2 Hb) as (m2 & Hm2 & _ & s2 & Hr2 & _).
    rewrite Hr1 in Hr2. injection Hr2 as <- _. eauto.
  - apply (read_history_failed_bin _ _ _ _ _ _ Hf Hne) in H1. subst h1. destruct a; discriminate.
Qed.

Lemma bin_history_progress : forall d st ms st1,
  open_bin E d = Ok st ->
  reads_bin E st (seq 0 (length (ix_sectors E (is_ix E bstate st)))) = Ok (ms, st1) ->
  forall h, Forall (fun i => i < length (ix_sectors E (is_ix E bstate st))) h ->
  exists st2, reads_bin E st h = Ok (map (fun i => nth i ms (mzero (d0 E) 0 0)) h, st2).
Proof.
  intros d st ms st1 Ho H1 h Hh. unfold reads_bin in *.
  set (n := length (ix_sectors E (is_ix E bstate st))) in *.
  apply bind_ok in H1. destruct H1 as ([n1 u1] & H1 & E1). injection E1 as E1a E1b; subst.
  destruct (open_bin_state _ _ Ho) as (p & [Hs|[Hne Hf]]).
  - rewrite Hs in H1 |- *.
    pose proof (inv_bin_init (is_fmt E bstate st) (is_ix E bstate st) d p) as Hi.
    apply (bin_det _ _ _ _ _ _ _ _ Hi) in H1. destruct H1 as [_ H1].
    destruct (bin_prog (is_fmt E bstate st) (is_ix E bstate st) d p
                (fun i => nth i ms (mzero (d0 E) 0 0))) with (h := h) as (st2 & H2).
    + fold n. intros i Hin.
      assert (Hq : nth_error (seq 0 n) i = Some i).
      { rewrite nth_error_nth' with (d := 0) by (rewrite seq_length; assumption). rewrite seq_nth by assumption. reflexivity. }
      destruct (Forall2_nth_l _ _ _ _ _ _ _ H1 Hq) as (m & Hm & _ & s' & Hr & Hsf).
      rewrite (nth_error_nth _ _ _ Hm). rewrite Hr. f_equal. f_equal.
      eapply bin_rd; eassumption.
    + assumption.
    + fold n in H2. rewrite H2. simpl. eauto.
  - apply (read_history_failed_bin _ _ _ _ _ _ Hf Hne) in H1.
    assert (n = 0) by (destruct n; [reflexivity|discriminate]).
    destruct h as [|i h]; [simpl; eauto|]. inversion Hh; subst. lia.
Qed.

Lemma txt_history_consistent : forall file st h1 h2 ms1 ms2 st1 st2 a b i,
  open_txt E file = Ok st ->
  Forall canonical_sector (ix_sectors E (is_ix E (tstate E) st)) ->
  reads_txt E st h1 = Ok (ms1, st1) -> reads_txt E st h2 = Ok (ms2, st2) ->
  nth_error h1 a = Some i -> nth_error h2 b = Some i ->
  exists m, nth_error ms1 a = Some m /\ nth_error ms2 b = Some m.
Proof.
  intros file st h1 h2 ms1 ms2 st1 st2 a b i Ho Hc H1 H2 Ha Hb.
  unfold reads_txt in H1, H2.
  apply bind_ok in H1. destruct H1 as ([n1 u1] & H1 & E1). injection E1 as E1a E1b; subst.
  apply bind_ok in H2. destruct H2 as ([n2 u2] & H2 & E2). injection E2 as E2a E2b; subst.
  destruct (open_txt_state _ _ Ho) as (p & [Hs|[Hne Hf]]).
  - rewrite Hs in H1, H2.
    pose proof (inv_txt_init (is_ix E _ st) file p) as Hi.
    apply (txt_det _ _ _ _ Hc _ _ _ _ Hi) in H1. destruct H1 as [_ H1].
    apply (txt_det _ _ _ _ Hc _ _ _ _ Hi) in H2. destruct H2 as [_ H2].
    destruct (Forall2_nth_l _ _ _ _ _ _ _ H1 Ha) as (m1 & Hm1 & _ & s1 & Hr1 & _).
    destruct (Forall2_nth_l _ _ _ _ _ _ _ H2 Hb) as (m2 & Hm2 & _ & s2 & Hr2 & _).
    rewrite Hr1 in Hr2. injection Hr2 as <- _. eauto.
  - apply (read_history_failed_txt _ _ Hc _ _ _ _ Hf Hne) in H1. subst h1. destruct a; discriminate.
Qed.

Lemma txt_history_progress : forall file st ms st1,
  open_txt E file = Ok st -> f_nl E file = true ->
  Forall canonical_sector (ix_sectors E (is_ix E (tstate E) st)) ->
  reads_txt E st (seq 0 (length (ix_sectors E (is_ix E (tstate E) st)))) = Ok (ms, st1) ->
  forall h, Forall (fun i => i < length (ix_sectors E (is_ix E (tstate E) st))) h ->
  exists st2, reads_txt E st h = Ok (map (fun i => nth i ms (mzero (d0 E) 0 0)) h, st2).
Proof.
  intros file st ms st1 Ho Hnl Hc H1 h Hh. unfold reads_txt in *.
  set (n := length (ix_sectors E (is_ix E (tstate E) st))) in *.
  apply bind_ok in H1. destruct H1 as ([n1 u1] & H1 & E1). injection E1 as E1a E1b; subst.
  destruct (open_txt_state _ _ Ho) as (p & [Hs|[Hne Hf]]).
  - rewrite Hs in H1 |- *.
    pose proof (inv_txt_init (is_ix E _ st) file p) as Hi.
    apply (txt_det _ _ _ _ Hc _ _ _ _ Hi) in H1. destruct H1 as [_ H1].
    destruct (txt_prog (is_fmt E _ st) (is_ix E _ st) file p Hnl
                (fun i => nth i ms (mzero (d0 E) 0 0))) with (h := h) as (st2 & H2).
    + fold n. intros i Hin.
      assert (Hq : nth_error (seq 0 n) i = Some i).
      { rewrite nth_error_nth' with (d := 0) by (rewrite seq_length; assumption). rewrite seq_nth by assumption. reflexivity. }
      destruct (Forall2_nth_l _ _ _ _ _ _ _ H1 Hq) as (m & Hm & _ & s' & Hr & Hsf).
      rewrite (nth_error_nth _ _ _ Hm).
      pose proof (txt_rd _ _ _ _ Hc _ _ _ Hr Hsf) as ->. auto.
    + assumption.
    + fold n in H2. rewrite H2. simpl. eauto.
  - apply (read_history_failed_txt _ _ Hc _ _ _ _ Hf Hne) in H1.
    assert (n = 0) by (destruct n; [reflexivity|discriminate]).
    destruct h as [|i h]; [simpl; eauto|]. inversion Hh; subst. lia.
Qed.

(** every successful read of all sectors means that the file is complete *)
Lemma bin_complete : forall d st ms st1,
  open_bin E d = Ok st ->
  reads_bin E st (seq 0 (length (ix_sectors E (is_ix E bstate st)))) = Ok (ms, st1) ->
  forall p, is_state E bstate st = InSt bstate 0 [Some p] (BSt d p false false) ->
  p <= length d ->
  forall i, i <= length (ix_sectors E (is_ix E bstate st)) ->
  tp_bin (is_fmt E bstate st) (is_ix E bstate st) p i <= length d.
Proof.
  intros d st ms st1 Ho H1 p Hs Hp i Hi. unfold reads_bin in H1.
  set (n := length (ix_sectors E (is_ix E bstate st))) in *.
  apply bind_ok in H1. destruct H1 as ([n1 u1] & H1 & E1). injection E1 as E1a E1b; subst.
  rewrite Hs in H1.
  pose proof (inv_bin_init (is_fmt E bstate st) (is_ix E bstate st) d p) as Hinv.
  apply (bin_det _ _ _ _ _ _ _ _ Hinv) in H1. destruct H1 as [_ H1].
  induction i as [|i IH].
  - unfold tp_bin. simpl. lia.
  - replace (S i) with (i + 1) by lia. rewrite tp_bin_S.
    assert (Hq : nth_error (seq 0 n) i = Some i).
    { rewrite nth_error_nth' with (d := 0) by (rewrite seq_length; lia). rewrite seq_nth by lia. reflexivity. }
    destruct (Forall2_nth_l _ _ _ _ _ _ _ H1 Hq) as (m & Hm & _ & s' & Hr & Hsf).
    destruct (rd_bin_pos _ _ _ _ _ _ _ _ Hr Hsf) as [_ [H0|H0]].
    + rewrite H0. specialize (IH ltac:(lia)). lia.
    + assumption.
Qed.
End Access.
