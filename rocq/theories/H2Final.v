(** The H2 file theorems in the form of the properties. *)
From Coq Require Import String List ZArith Lia Bool.
From Verif Require Import Base BaseLemmas H2Model H2Machine H2Spec H2Elements H2Sectors H2Access H2RoundBin H2RoundTxt H2Extra H2Extra2 H2Extra3.
Import ListNotations.
Open Scope nat_scope.
Local Opaque enc32 enc64.

Section Final.
Variable E : env.
Notation D := (dbl E).
Notation line := (list (word (txt E))).

(** * Skipping *)
Lemma skip_lands_bin : forall f ix i d p m s', rd_bin E f ix i (BSt d p false false) = Ok (m, s') ->
  b_fail s' = false -> sk_bin E f ix i (BSt d p false false) = Ok s' /\ p <= b_pos s'.
Proof.
  intros f ix i d p m s' H Hf. split; [eapply rd_sk_bin; eassumption|].
  destruct (rd_bin_pos E f ix i d p m s' H Hf) as [-> _]. cbn [b_pos]. lia.
Qed.

Lemma t_getline_mono : forall s, t_pos E s <= t_pos E (snd (t_getline E s)).
Proof.
  intros s. unfold t_getline. destruct (t_fail E s || t_eof E s); simpl; [lia|]. destruct (nth_error _ _); simpl; lia.
Qed.
Lemma t_GetLine_mono : forall n s, t_pos E s <= t_pos E (snd (t_GetLine_fuel E n s)).
Proof.
  induction n as [|n IH]; intros s; cbn [t_GetLine_fuel]; pose proof (t_getline_mono s) as H;
    destruct (t_getline E s) as [[|w l] s1]; cbn [snd] in *; try assumption.
  destruct (t_fail E s1); cbn [snd]; [assumption|]. specialize (IH s1). lia.
Qed.
Lemma skip_lines_mono : forall n s, t_pos E s <= t_pos E (skip_lines E n s).
Proof.
  induction n as [|n IH]; intros s; cbn [skip_lines]; [lia|].
  pose proof (t_GetLine_mono (S (length (f_lines E (t_file E s)) - t_pos E s)) s) as H. fold (t_GetLine E s) in H.
  specialize (IH (snd (t_GetLine E s))). lia.
Qed.
Lemma skip_lands_txt : forall f ix i st m st', Forall canonical_sector (ix_sectors E ix) ->
  rd_txt E f ix i st = Ok (m, st') -> sk_txt E f ix i st = Ok st' /\ t_pos E st <= t_pos E st'.
Proof.
  intros f ix i st m st' Hc H. pose proof (rd_txt_pos E f ix i st m st' Hc H) as Hp. subst st'.
  split; [eapply rd_sk_txt; eassumption|apply skip_lines_mono].
Qed.

(** * Contents of a file after any history of writes *)

(** Binary: header, then for each sector written, in order, the words of its elements (between
    record delimiters [d1], [d2], absent in version 15200). *)
Definition bin_part (f : format) (s : sector) (w : nat * mat D * conversion) (p : list Z) : Prop :=
  exists d1 d2, p = d1 ++ flat_map enc32 (sector_words E s (snd (fst w), snd w)) ++ d2
    /\ (f = V15200 -> d1 = [] /\ d2 = []).
(** Text: one line for each element, with its labels and value. *)
Definition txt_part (f : format) (num_p : nat) (s : sector) (w : nat * mat D * conversion) (p : list line) : Prop :=
  p = map (fun e => map WInt (element_labels f num_p s (fst e) (snd e))
                    ++ [WTxt (fmt_f E (file_bits E (snd w) s (snd (fst w)) (fst e) (snd e)))]) (held_list s).

Inductive Forall3 {A B C} (R : A -> B -> C -> Prop) : list A -> list B -> list C -> Prop :=
| Forall3_nil : Forall3 R [] [] []
| Forall3_cons : forall a b c la lb lc, R a b c -> Forall3 R la lb lc -> Forall3 R (a :: la) (b :: lb) (c :: lc).

Lemma write_contents_gen : forall U (wr : outstream E U -> nat * mat D * conversion -> outcome (outstream E U))
    (R : sector -> nat * mat D * conversion -> list U -> Prop) f0 ix0,
  (forall st w st', os_fmt E U st = f0 -> os_ix E U st = ix0 -> wr st w = Ok st' ->
     exists s p, nth_error (ix_sectors E ix0) (os_si E U st) = Some s /\ R s w p
       /\ os_out E U st' = os_out E U st ++ p /\ os_si E U st' = os_si E U st + 1
       /\ os_fmt E U st' = f0 /\ os_ix E U st' = ix0) ->
  forall h st st', os_fmt E U st = f0 -> os_ix E U st = ix0 -> write_history E wr h st = Ok st' ->
  exists ps, os_out E U st' = os_out E U st ++ concat ps
    /\ Forall3 R (firstn (length h) (skipn (os_si E U st) (ix_sectors E ix0))) h ps.
Proof.
  intros U wr R f0 ix0 Hwr. induction h as [|w h IH]; intros st st' Hf Hi H; cbn [write_history] in H.
  - apply Ok_inj in H. subst st'. exists []. cbn [concat]. rewrite app_nil_r. split; [reflexivity|]. constructor.
  - apply bind_ok in H. destruct H as (st1 & H1 & H).
    destruct (Hwr _ _ _ Hf Hi H1) as (s & p & Hs & HR & Ho & Hsi & Hf1 & Hi1).
    destruct (IH _ _ Hf1 Hi1 H) as (ps & Hps & HF). exists (p :: ps). split.
    + rewrite Hps, Ho. cbn [concat]. rewrite app_assoc. reflexivity.
    + rewrite Hsi in HF.
      assert (Hsk : skipn (os_si E U st) (ix_sectors E ix0) = s :: skipn (os_si E U st + 1) (ix_sectors E ix0)).
      { clear -Hs. revert Hs. generalize (ix_sectors E ix0). generalize (os_si E U st).
        induction n as [|n IHn]; intros [|x l] Hs; try discriminate Hs.
        - simpl in Hs. injection Hs as ->. reflexivity.
        - simpl in Hs. simpl. apply IHn. assumption. }
      rewrite Hsk. cbn [length firstn]. constructor; assumption.
Qed.

Lemma write_contents_bin : forall f ix h data, Forall canonical_sector (ix_sectors E ix) ->
  write_file_bin E f ix h = Ok data ->
  exists st0 parts, create_bin E f ix = Ok st0 /\ data = os_out E Z st0 ++ concat parts
  /\ Forall3 (bin_part f) (firstn (length h) (ix_sectors E ix)) h parts.
Proof.
  intros f ix h data Hc H. unfold write_file_bin in H. apply bind_ok in H. destruct H as (st & Hst & H).
  apply bind_ok in H. destruct H as (st' & H & Hd). apply Ok_inj in Hd. subst data.
  assert (os_ix E Z st = ix /\ os_si E Z st = 0 /\ os_fmt E Z st = f) as (H1 & H2 & H3).
  { unfold create_bin in Hst. apply bind_ok in Hst. destruct Hst as (hd & _ & Hst). apply Ok_inj in Hst. subst st. auto. }
  destruct (write_contents_gen Z (write_sector_bin E) (bin_part f) f ix) with (h := h) (st := st) (st' := st') as (ps & Hps & HF); auto.
  - intros s [[si m] c] s' Hf Hi G. unfold write_sector_bin in G.
    apply bind_ok in G. destruct G as ([] & G1 & G). apply bind_ok in G. destruct G as (b & G2 & G). apply Ok_inj in G. subst s'.
    rewrite Hf, Hi in *. apply write_checks_inv in G1. destruct G1 as (sec & Hs & -> & _).
    destruct (stored_bin E f ix _ sec m c b Hs) with (2 := G2) as (d1 & d2 & Hb & H15).
    { rewrite Forall_forall in Hc. eapply Hc, nth_error_In; eauto. }
    exists sec, b. split; [exact Hs|]. split; [exists d1, d2; auto|]. repeat split.
  - exists st, ps. split; [assumption|]. split; [assumption|]. rewrite H2 in HF. exact HF.
Qed.

Lemma write_contents_txt : forall f ix h file, Forall canonical_sector (ix_sectors E ix) ->
  Forall (labels_fit (length (ix_p E ix))) (ix_sectors E ix) -> Forall J_fits (ix_sectors E ix) ->
  write_file_txt E f ix h = Ok file ->
  exists st0 parts, create_txt E f ix = Ok st0 /\ file = TFile E (os_out E line st0 ++ concat parts) true
  /\ Forall3 (txt_part f (length (ix_p E ix))) (firstn (length h) (ix_sectors E ix)) h parts.
Proof.
  intros f ix h file Hc Hl HJ H. unfold write_file_txt in H. apply bind_ok in H. destruct H as (st & Hst & H).
  apply bind_ok in H. destruct H as (st' & H & Hd). apply Ok_inj in Hd. subst file.
  assert (os_ix E line st = ix /\ os_si E line st = 0 /\ os_fmt E line st = f) as (H1 & H2 & H3).
  { unfold create_txt in Hst. apply bind_ok in Hst. destruct Hst as (hd & _ & Hst). apply Ok_inj in Hst. subst st. auto. }
  destruct (write_contents_gen line (write_sector_txt E) (txt_part f (length (ix_p E ix))) f ix) with (h := h) (st := st) (st' := st') as (ps & Hps & HF); auto.
  - intros s [[si m] c] s' Hf Hi G. unfold write_sector_txt in G.
    apply bind_ok in G. destruct G as ([] & G1 & G). apply bind_ok in G. destruct G as (b & G2 & G). apply Ok_inj in G. subst s'.
    rewrite Hf, Hi in *. apply write_checks_inv in G1. destruct G1 as (sec & Hs & -> & _).
    rewrite Forall_forall in Hc, Hl, HJ.
    pose proof (stored_txt_lines E f ix _ sec m c b Hs (Hc _ (nth_error_In _ _ Hs)) (Hl _ (nth_error_In _ _ Hs)) (HJ _ (nth_error_In _ _ Hs)) G2) as Hb.
    exists sec, b. split; [exact Hs|]. split; [exact Hb|]. repeat split.
  - exists st, ps. split; [assumption|]. split; [rewrite Hps; reflexivity|]. rewrite H2 in HF. exact HF.
Qed.

(** * Sizes *)
Lemma sizes_bin : forall f ix h data, Forall canonical_sector (ix_sectors E ix) ->
  write_file_bin E f ix h = Ok data -> length h = length (ix_sectors E ix) ->
  (exists pre parts, data = pre ++ size_fields f (ix_sectors E ix) ++ concat parts
     /\ Forall3 (bin_part f) (ix_sectors E ix) h parts)
  /\ (forall sp, length (species_words E sp (ix_sectors E ix) (map (fun w => (snd (fst w), snd w)) h)) = total_held sp (ix_sectors E ix))
  /\ total_held PP (ix_sectors E ix) + total_held NN (ix_sectors E ix) + total_held PN (ix_sectors E ix)
     = list_sum (map count_held (ix_sectors E ix)).
Proof.
  intros f ix h data Hc H Hl. split; [|split].
  - destruct (write_contents_bin f ix h data Hc H) as (st0 & parts & Hcr & Hd & HF).
    destruct (announced_sizes_bin E f ix st0 Hc Hcr) as (pre & Hpre).
    exists pre, parts. rewrite Hl, firstn_all in HF. split; [|exact HF]. rewrite Hd, Hpre, <- app_assoc. reflexivity.
  - intros sp. apply species_words_length; [assumption|]. rewrite map_length. symmetry. assumption.
  - apply total_held_sum.
Qed.

Lemma Forall3_lines : forall f np ss h parts, Forall3 (txt_part f np) ss h parts ->
  Forall2 (fun s p => length p = count_held s) ss parts.
Proof.
  intros f np ss h parts H. induction H as [|s w p ss h parts Hp H IH]; constructor; [|assumption].
  unfold txt_part in Hp. subst p. rewrite map_length. reflexivity.
Qed.

Lemma sizes_txt : forall f ix h file, Forall canonical_sector (ix_sectors E ix) ->
  Forall (labels_fit (length (ix_p E ix))) (ix_sectors E ix) -> Forall J_fits (ix_sectors E ix) ->
  (f = V0 -> sizes_below (two31 - 1) (ix_sectors E ix)) ->
  write_file_txt E f ix h = Ok file -> length h = length (ix_sectors E ix) ->
  exists pre parts, f_lines E file = pre ++ size_words E f (ix_sectors E ix) :: concat parts
     /\ Forall2 (fun s p => length p = count_held s) (ix_sectors E ix) parts.
Proof.
  intros f ix h file Hc Hlab HJ Hb H Hl.
  destruct (write_contents_txt f ix h file Hc Hlab HJ H) as (st0 & parts & Hcr & Hd & HF).
  destruct (announced_sizes_txt E f ix st0 Hc Hb Hcr) as (pre & Hpre).
  exists pre, parts. rewrite Hl, firstn_all in HF. apply Forall3_lines in HF. split; [|exact HF].
  rewrite Hd. cbn [f_lines]. rewrite Hpre, <- app_assoc. reflexivity.
Qed.

(** * Version written = version used *)
Lemma version_written_bin : forall f ix h data st, write_file_bin E f ix h = Ok data ->
  open_bin E data = Ok st -> is_fmt E bstate st = f.
Proof.
  intros f ix h data st H Ho. unfold write_file_bin in H.
  apply bind_ok in H. destruct H as (s0 & H0 & H). apply bind_ok in H. destruct H as (s1 & H1 & H). apply Ok_inj in H. subst data.
  destruct (write_prefix_gen E Z (write_sector_bin E)) with (h1 := @nil (nat * mat D * conversion)) (h2 := h) (st := s0) (st1 := s0) (st2 := s1) as (x & Hx).
  { intros s [[si m] c] s' G. unfold write_sector_bin in G.
    apply bind_ok in G. destruct G as (u & _ & G). apply bind_ok in G. destruct G as (b & _ & G). apply Ok_inj in G. subst s'. eexists. reflexivity. }
  { reflexivity. } { exact H1. }
  unfold create_bin in H0. apply bind_ok in H0. destruct H0 as (hd & _ & H0). apply Ok_inj in H0. subst s0. cbn [os_out] in Hx.
  rewrite Hx in Ho. rewrite wr_record_fortran in Ho. cbn [flat_map] in Ho. rewrite app_nil_r, <- app_assoc in Ho.
  destruct (open_bin_version E (format_code f) (hd ++ x)) as [_ Hv]; [destruct f; reflexivity|].
  specialize (Hv st Ho). destruct (is_fmt E bstate st), f; try reflexivity; discriminate Hv.
Qed.

Lemma version_written_txt : forall f ix h file st, write_file_txt E f ix h = Ok file ->
  open_txt E file = Ok st -> is_fmt E (tstate E) st = f.
Proof.
  intros f ix h file st H Ho. unfold write_file_txt in H.
  apply bind_ok in H. destruct H as (s0 & H0 & H). apply bind_ok in H. destruct H as (s1 & H1 & H). apply Ok_inj in H. subst file.
  destruct (write_prefix_gen E line (write_sector_txt E)) with (h1 := @nil (nat * mat D * conversion)) (h2 := h) (st := s0) (st1 := s0) (st2 := s1) as (x & Hx).
  { intros s [[si m] c] s' G. unfold write_sector_txt in G.
    apply bind_ok in G. destruct G as (u & _ & G). apply bind_ok in G. destruct G as (b & _ & G). apply Ok_inj in G. subst s'. eexists. reflexivity. }
  { reflexivity. } { exact H1. }
  unfold create_txt in H0. apply bind_ok in H0. destruct H0 as (hd & _ & H0). apply Ok_inj in H0. subst s0. cbn [os_out] in Hx.
  destruct (open_txt_version E (format_code f) [] (TFile E (os_out E line s1) true)) as [_ Hv]; [destruct f; reflexivity| |].
  { rewrite Hx. reflexivity. }
  specialize (Hv st Ho). destruct (is_fmt E (tstate E) st), f; try reflexivity; discriminate Hv.
Qed.
End Final.
