(** Truncated files, normalisation of what is stored, and file modes of H2 files. *)
From Coq Require Import String List ZArith Lia Bool.
From Verif Require Import Base BaseLemmas H2Model H2Machine H2Spec H2Elements H2Sectors H2Access H2RoundBin H2RoundTxt H2Extra H2Extra2.
Import ListNotations.
Open Scope nat_scope.
Local Opaque enc32 enc64.

Section Extra3.
Variable E : env.
Notation D := (dbl E).
Notation line := (list (word (txt E))).

(** * V15200 binary streams only ever succeed or stop with an error *)
Definition posns_ok (st : instate bstate) : Prop :=
  in_posns bstate st <> [] /\ in_si bstate st < length (in_posns bstate st).

Lemma finish_ok_exit : forall n si ps s, ps <> [] -> si < length ps -> si < n ->
  (exists st, finish bstate b_fail b_tell si ps s = Ok st /\ posns_ok st /\ in_si bstate st = si + 1)
  \/ finish bstate b_fail b_tell si ps s = Exit.
Proof.
  intros n si ps s Hne Hsi Hn. unfold finish. destruct (b_fail s); cbn [negb check bind]; [right; reflexivity|].
  left. destruct (Nat.ltb_spec (length ps - 1) (si + 1)).
  - destruct (b_tell s) as [p s']. eexists. split; [reflexivity|]. split; [|reflexivity].
    split; cbn [in_posns in_si]; [destruct ps; discriminate|]. rewrite app_length. simpl. lia.
  - eexists. split; [reflexivity|]. split; [|reflexivity]. split; cbn [in_posns in_si]; [assumption|lia].
Qed.

Section Fixed.
Variable ix : indexing E.
Hypothesis Hc : Forall canonical_sector (ix_sectors E ix).
Notation n := (length (ix_sectors E ix)).

Lemma sk_15200_ok : forall i st, i < n -> exists st', sk_bin E V15200 ix i st = Ok st'.
Proof.
  intros i st Hi. cbn [sk_bin]. unfold sk_bin_15200.
  destruct (nth_error (ix_sectors E ix) i) as [s|] eqn:Hs; [|apply nth_error_None in Hs; lia]. cbn [get bind].
  rewrite canonical_upper by (rewrite Forall_forall in Hc; eapply Hc, nth_error_In; eauto). cbn [cassert bind]. eauto.
Qed.
Lemma rd_15200_ok : forall i st, i < n -> exists m st', rd_bin E V15200 ix i st = Ok (m, st').
Proof.
  intros i st Hi. cbn [rd_bin]. unfold rd_bin_15200.
  destruct (nth_error (ix_sectors E ix) i) as [s|] eqn:Hs; [|apply nth_error_None in Hs; lia]. cbn [get bind].
  assert (Hcs : canonical_sector s) by (rewrite Forall_forall in Hc; eapply Hc, nth_error_In; eauto).
  rewrite canonical_upper by assumption. cbn [cassert bind].
  destruct (rd_buffer (sector_entries s) st) as [buf st1] eqn:Hb. apply rd_buffer_len in Hb.
  destruct (rd_loop_bin_total E s buf Hcs Hb) as (m & Hm).
  rewrite Hm. cbn [bind]. eauto.
Qed.

Lemma skip_n_ok_exit : forall k st, posns_ok st -> in_si bstate st + k <= n ->
  (exists st', skip_n bstate b_fail b_tell (sk_bin E V15200 ix) k st = Ok st' /\ posns_ok st' /\ in_si bstate st' = in_si bstate st + k)
  \/ skip_n bstate b_fail b_tell (sk_bin E V15200 ix) k st = Exit.
Proof.
  induction k as [|k IH]; intros st Hp Hk; cbn [skip_n].
  - left. exists st. rewrite Nat.add_0_r. auto.
  - unfold skip_sector. destruct (sk_15200_ok (in_si bstate st) (in_st bstate st) ltac:(lia)) as (s' & ->). cbn [bind].
    destruct Hp as [Hne Hsi].
    destruct (finish_ok_exit n (in_si bstate st) (in_posns bstate st) s' Hne Hsi ltac:(lia)) as [(st1 & -> & Hp1 & H1)| ->]; cbn [bind]; [|right; reflexivity].
    destruct (IH st1 Hp1 ltac:(lia)) as [(st2 & -> & Hp2 & H2)| ->]; [left|right; reflexivity].
    exists st2. split; [reflexivity|]. split; [assumption|lia].
Qed.

Lemma reads_ok_exit : forall h st, posns_ok st -> Forall (fun i => i < n) h ->
  let r := read_history E bstate n b_fail b_tell b_seek (rd_bin E V15200 ix) (sk_bin E V15200 ix) h st in
  is_ok r \/ r = Exit.
Proof.
  induction h as [|i h IH]; intros st Hp Hh; cbn [read_history]; cbv zeta; [left; eexists; reflexivity|].
  inversion Hh as [|x y Hi Hh']; subst.
  assert (G : (exists m st1, read_sector E bstate n b_fail b_tell b_seek (rd_bin E V15200 ix) (sk_bin E V15200 ix) i st = Ok (m, st1) /\ posns_ok st1)
     \/ read_sector E bstate n b_fail b_tell b_seek (rd_bin E V15200 ix) (sk_bin E V15200 ix) i st = Exit).
  { unfold read_sector.
    assert (G : (exists st1, seek_to_sector bstate n b_fail b_tell b_seek (sk_bin E V15200 ix) i st = Ok st1 /\ posns_ok st1 /\ in_si bstate st1 < n)
       \/ seek_to_sector bstate n b_fail b_tell b_seek (sk_bin E V15200 ix) i st = Exit).
    { unfold seek_to_sector. rewrite (proj2 (Nat.ltb_lt _ _) Hi). cbn [cassert bind].
      destruct Hp as [Hne Hsi]. destruct (Nat.leb_spec i (length (in_posns bstate st) - 1)) as [Hle|Hgt].
      - left. destruct (nth_error (in_posns bstate st) i) as [p|] eqn:Hn.
        + cbn [get bind]. eexists. split; [reflexivity|]. split; [|exact Hi].
          split; cbn [in_posns in_si]; [assumption|]. apply nth_error_Some. congruence.
        + apply nth_error_None in Hn. destruct (in_posns bstate st); [congruence|simpl in *; lia].
      - destruct (skip_n_ok_exit (i - in_si bstate st) st (conj Hne Hsi) ltac:(lia)) as [(st1 & -> & Hp1 & H1)| ->]; [left|right; reflexivity].
        exists st1. split; [reflexivity|]. split; [assumption|lia]. }
    destruct G as [(st1 & -> & [Hne Hsi] & Hlt)| ->]; cbn [bind]; [|right; reflexivity].
    destruct (rd_15200_ok (in_si bstate st1) (in_st bstate st1) Hlt) as (m & s' & ->). cbn [bind].
    destruct (finish_ok_exit n (in_si bstate st1) (in_posns bstate st1) s' Hne Hsi Hlt) as [(st2 & -> & Hp2 & _)| ->]; cbn [bind]; [left; eauto|right; reflexivity]. }
  destruct G as [(m & st1 & -> & Hp1)| ->]; cbn [bind]; [|right; reflexivity].
  destruct (IH st1 Hp1 Hh') as [([ms st2] & ->)| ->]; cbn [bind]; [left; eexists; reflexivity|right; reflexivity].
Qed.
End Fixed.

(** bytes of the elements of sectors 0..i *)
Lemma tp_bin_15200 : forall ix p i, Forall canonical_sector (ix_sectors E ix) -> i <= length (ix_sectors E ix) ->
  tp_bin E V15200 ix p i = p + 4 * list_sum (map count_held (firstn i (ix_sectors E ix))).
Proof.
  intros ix p i Hc. induction i as [|i IH]; intros Hi.
  - unfold tp_bin. simpl. lia.
  - replace (S i) with (i + 1) at 1 by lia. rewrite tp_bin_S, IH by lia.
    unfold sec_bytes. destruct (nth_error (ix_sectors E ix) i) as [s|] eqn:Hs; [|apply nth_error_None in Hs; lia].
    cbn [has_records andb delim_bytes].
    assert (Hf : firstn (S i) (ix_sectors E ix) = firstn i (ix_sectors E ix) ++ [s]).
    { clear -Hs. revert Hs. generalize (ix_sectors E ix). induction i as [|i IHi]; intros [|x l] Hs; try discriminate Hs.
      - simpl in Hs. injection Hs as ->. reflexivity.
      - simpl in Hs. cbn [firstn app]. f_equal. apply IHi. assumption. }
    rewrite Hf, map_app, list_sum_app. cbn [map list_sum fold_right].
    rewrite count_held_entries by (rewrite Forall_forall in Hc; eapply Hc, nth_error_In; eauto). lia.
Qed.

Lemma images_length_15200 : forall ix ss ws i, Forall canonical_sector ss ->
  (forall j, nth_error ss j = nth_error (ix_sectors E ix) (i + j)) -> length ss = length ws ->
  length (images E V15200 ix i ss ws) = 4 * list_sum (map count_held ss).
Proof.
  intros ix. induction ss as [|s ss IH]; intros [|w ws] i Hc Hn Hl; try discriminate Hl; [reflexivity|].
  inversion Hc; subst. cbn [images map]. rewrite app_length, (IH ws (S i)).
  - rewrite sec_image_length; [|rewrite <- (Nat.add_0_r i); symmetry; apply (Hn 0)|assumption].
    unfold sec_bytes. rewrite <- (Nat.add_0_r i) at 1. rewrite <- (Hn 0). cbn [nth_error has_records andb delim_bytes list_sum fold_right].
    rewrite count_held_entries by assumption. unfold list_sum. lia.
  - assumption.
  - intros j. rewrite (Hn (S j)) at 1. f_equal. lia.
  - simpl in Hl. lia.
Qed.

Theorem truncated_15200 : env_ok E -> forall ix ws data n,
  indexing_ok E ix -> scheme E V15200 ix -> Forall2 (fits_sector E) (ix_sectors E ix) ws ->
  write_file_bin E V15200 ix (whole_operator E ws) = Ok data ->
  let header := length data - 4 * list_sum (map count_held (ix_sectors E ix)) in
  header <= n ->
  exists st, open_bin E (firstn n data) = Ok st /\ is_ix E bstate st = ix
  /\ forall h i s, Forall (fun i => i < length (ix_sectors E ix)) h -> In i h ->
     nth_error (ix_sectors E ix) i = Some s -> 0 < count_held s ->
     n < header + 4 * list_sum (map count_held (firstn (i + 1) (ix_sectors E ix))) ->
     reads_bin E st h = Exit.
Proof.
  intros Henv ix ws data n Hok Hsch HF Hw header Hn. pose proof (iok_canonical E ix Hok) as Hc.
  destruct (create_bin_ok E Henv V15200 ix Hsch) as (h & Hcr & Hh).
  set (body := images E V15200 ix 0 (ix_sectors E ix) ws).
  assert (Hd : data = wr_record [format_code V15200] ++ h ++ body).
  { unfold write_file_bin in Hw. rewrite Hcr in Hw. cbn [bind] in Hw.
    change (whole_operator E ws) with (whole_from E 0 ws) in Hw.
    rewrite (write_all_bin E V15200 ix Hsch Hc I ws (ix_sectors E ix)) in Hw by (auto; reflexivity).
    cbn [bind os_out] in Hw. apply Ok_inj in Hw. rewrite <- app_assoc in Hw. symmetry. exact Hw. }
  set (pre := wr_record [format_code V15200] ++ h).
  assert (Hlen : length data = length pre + 4 * list_sum (map count_held (ix_sectors E ix))).
  { rewrite Hd. unfold pre, body. rewrite !app_length, (images_length_15200 ix).
    - lia.
    - assumption.
    - reflexivity.
    - eapply Forall2_len; eauto. }
  assert (Hhd : header = length pre) by (unfold header; lia).
  assert (Htr : firstn n data = wr_record [format_code V15200] ++ h ++ firstn (n - length pre) body).
  { rewrite Hd, app_assoc. fold pre. rewrite firstn_app, firstn_all2 by lia. unfold pre. rewrite <- app_assoc. reflexivity. }
  pose proof (open_bin_written E Henv V15200 ix h (firstn (n - length pre) body) Hok Hsch Hh) as Hop. cbv zeta in Hop. fold pre in Hop.
  rewrite <- Htr in Hop. eexists. split; [exact Hop|]. split; [reflexivity|].
  intros hs i s Hhs Hin Hs Hpos Hlt. unfold reads_bin. cbn [is_ix is_fmt is_state].
  set (d := pre ++ firstn (n - length pre) body).
  assert (Hdl : length d <= n).
  { unfold d. rewrite app_length, firstn_length. lia. }
  change (bat pre (firstn (n - length pre) body)) with (BSt d (length pre) false false).
  destruct (reads_ok_exit ix Hc hs (InSt bstate 0 [Some (length pre)] (BSt d (length pre) false false))) as [([ms st'] & Hr)| ->].
  - split; simpl; [discriminate|lia].
  - assumption.
  - exfalso. pose proof (inv_bin_init E V15200 ix d (length pre)) as Hinv.
    destruct (bin_det E V15200 ix d (length pre) _ _ _ _ Hinv Hr) as [_ HF2].
    destruct (In_nth_error _ _ Hin) as (a & Ha).
    destruct (Forall2_nth_l _ _ _ _ _ _ _ HF2 Ha) as (m & _ & Hi & s' & Hrd & Hnf).
    apply rd_bin_pos in Hrd; [|assumption]. destruct Hrd as [_ Hrd].
    fold (sa_bin E V15200 ix d (length pre) i) in *.
    rewrite <- tp_bin_S in Hrd. rewrite tp_bin_15200 in Hrd by (try assumption; lia).
    unfold sec_bytes in Hrd. rewrite Hs in Hrd. cbn [has_records andb delim_bytes] in Hrd.
    rewrite <- count_held_entries in Hrd by (rewrite Forall_forall in Hc; eapply Hc, nth_error_In; eauto).
    destruct Hrd as [Hrd|Hrd]; lia.
  - reflexivity.
Qed.

(** * Normalisation of what is stored *)
(** what is stored for an element: the element itself, or multiplied by 1/sqrt(2) once or twice *)
Lemma file_bits_cases : (forall x, dmul E (d1 E) x = x) -> forall c s m b k,
  file_bits E c s m b k =
  narrow E (match c, like_pair (s_bra s) b, like_pair (s_ket s) k with
            | CASToNAS, true, true => dmul E (dmul E (dinvsqrt2 E) (dinvsqrt2 E)) (at_ m b k)
            | CASToNAS, true, false | CASToNAS, false, true => dmul E (dinvsqrt2 E) (at_ m b k)
            | _, _, _ => at_ m b k
            end).
Proof.
  intros H1 c s m b k. unfold file_bits, nas_factor. f_equal.
  destruct c; rewrite ?H1; try reflexivity.
  destruct (like_pair (s_bra s) b), (like_pair (s_ket s) k); rewrite ?H1; reflexivity.
Qed.

(** text form of a sector *)
Lemma out_line_carries : forall f np s b k c m, labels_fit np s -> J_fits s -> held s b k ->
  out_line_at E f np c s m (b, k) = map WInt (element_labels f np s b k) ++ [WTxt (fmt_f E (file_bits E c s m b k))].
Proof.
  intros f np s b k c m Hlab (HJb & HJk) (Hb & Hk & _). unfold out_line_at, val, file_bits. cbn [fst snd].
  pose proof (nth_In _ (0, 0) Hb) as Ib. pose proof (nth_In _ (0, 0) Hk) as Ik. unfold element_labels.
  destruct (nth b (ss_states (s_bra s)) (0, 0)) as [b1 b2]. destruct (nth k (ss_states (s_ket s)) (0, 0)) as [k1 k2].
  destruct (Hlab b1 b2 (or_introl Ib)) as [B1 B2]. destruct (Hlab k1 k2 (or_intror Ik)) as [K1 K2].
  assert (Hr : forall sp a, (Z.of_nat (np + a + 1) < two31)%Z ->
     i32 (Z.of_nat a + index_offset np sp) = orbital_label V15200 np sp a).
  { intros sp a Ha. rewrite <- (label_offset V15200 np sp a Ha). cbv beta iota.
    apply i32_id, in_i32_iff. pose proof (offset_range np sp a Ha). unfold two31 in *. lia. }
  assert (Hq : forall a, (Z.of_nat (np + a + 1) < two31)%Z -> i32 (Z.of_nat a + 1) = Z.of_nat (a + 1)).
  { intros a Ha. rewrite i32_id; [lia|]. apply in_i32_iff. unfold two31 in *. lia. }
  destruct f; cbn [out_line fst snd]; rewrite ?Hr, ?Hq by assumption; rewrite ?(i32_id (2 * _)) by assumption; reflexivity.
Qed.

Lemma stored_txt_lines : forall f ix i s m c lines, nth_error (ix_sectors E ix) i = Some s -> canonical_sector s ->
  labels_fit (length (ix_p E ix)) s -> J_fits s ->
  wr_txt E f ix i m c = Ok lines ->
  lines = map (fun p => map WInt (element_labels f (length (ix_p E ix)) s (fst p) (snd p))
                        ++ [WTxt (fmt_f E (file_bits E c s m (fst p) (snd p)))]) (held_list s).
Proof.
  intros f ix i s m c lines Hs Hc Hl HJ H.
  assert (Hd : f = V0 -> is_diag s = true).
  { intros ->. unfold wr_txt in H. rewrite Hs in H. cbn [get bind] in H.
    apply bind_ok in H. destruct H as (u & _ & H). apply bind_ok in H. destruct H as (v & Hv & _). apply cassert_ok in Hv. assumption. }
  rewrite (wr_txt_text E f ix i s m c Hs Hc Hd) in H. apply Ok_inj in H. subst lines.
  unfold sec_text. rewrite held_list_elems. apply map_ext_in. intros [b k] Hin. cbn [fst snd].
  apply out_line_carries; auto. apply in_elems. assumption.
Qed.

(** * .mat files *)
Lemma open_mat_UB : forall name data file, ends_with ".mat" name -> open_file E name data file = UB.
Proof.
  intros name data file H. unfold open_file. destruct (mode_spec name) as (_ & _ & Hm & _).
  rewrite (proj2 Hm H). reflexivity.
Qed.
End Extra3.
