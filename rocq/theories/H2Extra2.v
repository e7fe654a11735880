(** Labels of text files, truncated files, file modes and write order of H2 files. *)
From Coq Require Import String List ZArith Lia Bool Ascii.
From Verif Require Import Base BaseLemmas H2Model H2Machine H2Spec H2Elements H2Sectors H2Access H2RoundBin H2RoundTxt H2Extra.
Import ListNotations.
Open Scope nat_scope.
Local Opaque enc32 enc64.

(** * Modes *)
Lemma substring_split : forall k s, k <= String.length s ->
  s = (substring 0 k s ++ substring k (String.length s - k) s)%string.
Proof.
  induction k as [|k IH]; intros s Hk.
  - rewrite Nat.sub_0_r. clear. simpl. induction s as [|c s IHs]; [reflexivity|].
    assert (H0 : substring 0 0 (String c s) = ""%string) by reflexivity. rewrite H0. simpl.
    f_equal. assert (H1 : substring 0 0 s = ""%string) by (destruct s; reflexivity).
    rewrite H1 in IHs. exact IHs.
  - destruct s as [|c s]; [simpl in Hk; lia|]. simpl in Hk. simpl. f_equal. apply IH. lia.
Qed.

Lemma string_length_app : forall a b, String.length (a ++ b) = String.length a + String.length b.
Proof. induction a as [|c a IH]; intros; simpl; [reflexivity|]. rewrite IH. reflexivity. Qed.

Lemma substring_app_suffix : forall a b, substring (String.length a) (String.length b) (a ++ b) = b.
Proof.
  induction a as [|c a IH]; intros b; simpl.
  - induction b as [|d b IHb]; [reflexivity|]. simpl. f_equal. exact IHb.
  - apply IH.
Qed.

Lemma suffix_spec : forall name suf n, String.length suf = n -> n <= String.length name ->
  (substring (String.length name - n) n name = suf <-> exists b, name = (b ++ suf)%string).
Proof.
  intros name suf n Hs Hn. split.
  - intros H. exists (substring 0 (String.length name - n) name).
    pose proof (substring_split (String.length name - n) name ltac:(lia)) as G.
    replace (String.length name - (String.length name - n)) with n in G by lia. rewrite H in G. exact G.
  - intros (b & ->). rewrite string_length_app, Hs. replace (String.length b + n - n) with (String.length b) by lia.
    rewrite <- Hs. apply substring_app_suffix.
Qed.

Lemma mode_spec : forall name,
  (deduced_io_mode name = Ok KText <-> ends_with ".dat" name)
  /\ (deduced_io_mode name = Ok KBinary <-> ends_with ".bin" name)
  /\ (deduced_io_mode name = Ok KMatrix <-> ends_with ".mat" name)
  /\ (~ ends_with ".dat" name -> ~ ends_with ".bin" name -> ~ ends_with ".mat" name ->
      deduced_io_mode name = Exit).
Proof.
  intros name. unfold deduced_io_mode, ends_with.
  destruct (Nat.ltb_spec (String.length name) 4) as [Hl|Hl].
  - assert (H : forall suf, String.length suf = 4 -> ~ exists b, name = (b ++ suf)%string).
    { intros suf Hs (b & ->). rewrite string_length_app in Hl. lia. }
    split; [|split; [|split]].
    + split; [discriminate|]. intros G. destruct (H ".dat"%string eq_refl G).
    + split; [discriminate|]. intros G. destruct (H ".bin"%string eq_refl G).
    + split; [discriminate|]. intros G. destruct (H ".mat"%string eq_refl G).
    + reflexivity.
  - rewrite <- (suffix_spec name ".dat" 4 eq_refl Hl), <- (suffix_spec name ".bin" 4 eq_refl Hl),
      <- (suffix_spec name ".mat" 4 eq_refl Hl).
    set (x := substring (String.length name - 4) 4 name).
    destruct (String.eqb_spec x ".dat") as [->|N1].
    { repeat split; try discriminate. intros H. destruct H. reflexivity. }
    destruct (String.eqb_spec x ".mat") as [->|N2].
    { repeat split; try discriminate. intros _ _ H. destruct H. reflexivity. }
    destruct (String.eqb_spec x ".bin") as [->|N3].
    { repeat split; try discriminate. intros _ H. destruct H. reflexivity. }
    repeat split; intros; congruence.
Qed.

Section Extra.
Variable E : env.
Notation D := (dbl E).
Notation line := (list (word (txt E))).

Lemma format_of_code_unsupported : forall v, ~ supported v -> format_of_code v = Exit.
Proof.
  intros v H. unfold format_of_code, supported in *.
  destruct (Z.eqb_spec v 0); [tauto|]. destruct (Z.eqb_spec v 15099); [tauto|].
  destruct (Z.eqb_spec v 15200); [tauto|]. reflexivity.
Qed.

Lemma open_bin_version : forall v rest, in_i32 v = true ->
  (~ supported v -> open_bin E (fortran_record (enc32 v) ++ rest) = Exit)
  /\ (forall st, open_bin E (fortran_record (enc32 v) ++ rest) = Ok st -> format_code (is_fmt E bstate st) = v).
Proof.
  intros v rest Hv.
  assert (Hop : forall rest, open_bin E (fortran_record (enc32 v) ++ rest)
    = bind (format_of_code v) (fun f => bind (match f with
               | V0 => rd_header_bin_0 E (bat (fortran_record (enc32 v)) rest)
               | V15099 => rd_header_bin_15099 E (bat (fortran_record (enc32 v)) rest)
               | V15200 => rd_header_bin_15200 E (bat (fortran_record (enc32 v)) rest)
               end) (fun '(ix, s) => let (p, s) := b_tell s in Ok (InStr E bstate f ix (InSt bstate 0 [p] s))))).
  { clear rest. intros rest. unfold open_bin, fortran_record. rewrite enc32_length. rewrite <- !app_assoc.
    change (BSt ?d 0 false false) with (bat [] d). change (Z.of_nat 4) with 4%Z.
    rewrite verify_bat by reflexivity. cbn [bind app]. rewrite rd_i32_bat. cbn [bind].
    rewrite verify_bat by reflexivity. cbn [bind b_fail bat negb check]. rewrite i32_id by assumption.
    rewrite <- !app_assoc. destruct (format_of_code v) as [[]| | |]; reflexivity. }
  rewrite Hop. split.
  - intros Hs. rewrite format_of_code_unsupported by assumption. reflexivity.
  - intros st H. apply bind_ok in H. destruct H as (f & Hf & H).
    apply bind_ok in H. destruct H as ([ix s] & _ & H). destruct (b_tell s) as [p s'].
    apply Ok_inj in H. subst st. cbn [is_fmt].
    unfold format_of_code in Hf.
    destruct (Z.eqb_spec v 0) as [->|]; [injection Hf as <-; reflexivity|].
    destruct (Z.eqb_spec v 15099) as [->|]; [injection Hf as <-; reflexivity|].
    destruct (Z.eqb_spec v 15200) as [->|]; [injection Hf as <-; reflexivity|discriminate].
Qed.

Lemma open_txt_version : forall v l file, in_i32 v = true -> nth_error (f_lines E file) 0 = Some (WInt v :: l) ->
  (~ supported v -> open_txt E file = Exit)
  /\ (forall st, open_txt E file = Ok st -> format_code (is_fmt E (tstate E) st) = v).
Proof.
  intros v l file Hv H0.
  assert (Hop : exists s, open_txt E file
    = bind (format_of_code v) (fun f => bind (match f with
               | V0 => rd_header_txt_0 E s
               | V15099 => rd_header_txt_15099 E s
               | V15200 => rd_header_txt_15200 E s
               end) (fun '(ix, s) => let (p, s) := t_tell E s in Ok (InStr E (tstate E) f ix (InSt (tstate E) 0 [p] s))))).
  { eexists. unfold open_txt, t_getline. cbn [t_fail t_eof orb t_file t_pos]. rewrite H0.
    cbn [scan_int bind]. rewrite Hv. cbn [bind t_fail negb check].
    destruct (format_of_code v) as [[]| | |]; reflexivity. }
  destruct Hop as (s & Hop). rewrite Hop. split.
  - intros Hs. rewrite format_of_code_unsupported by assumption. reflexivity.
  - intros st H. apply bind_ok in H. destruct H as (f & Hf & H).
    apply bind_ok in H. destruct H as ([ix s1] & _ & H). destruct (t_tell E s1) as [p s'].
    apply Ok_inj in H. subst st. cbn [is_fmt].
    unfold format_of_code in Hf.
    destruct (Z.eqb_spec v 0) as [->|]; [injection Hf as <-; reflexivity|].
    destruct (Z.eqb_spec v 15099) as [->|]; [injection Hf as <-; reflexivity|].
    destruct (Z.eqb_spec v 15200) as [->|]; [injection Hf as <-; reflexivity|discriminate].
Qed.

(** * Write order *)
Lemma write_checks_inv : forall ix cur si m c, write_checks E ix cur si m c = Ok tt ->
  exists s, nth_error (ix_sectors E ix) cur = Some s /\ si = cur /\ fits_sector E s (m, c).
Proof.
  intros ix cur si m c H. unfold write_checks in H.
  apply bind_ok in H. destruct H as (s & Hs & H). apply get_ok in Hs.
  apply bind_ok in H. destruct H as (u1 & H1 & H). apply cassert_ok, Nat.eqb_eq in H1.
  apply bind_ok in H. destruct H as (u2 & H2 & H). apply cassert_ok, andb_true_iff in H2. destruct H2 as [Hr Hc].
  apply Nat.eqb_eq in Hr, Hc. apply cassert_ok in H.
  exists s. split; [assumption|]. split; [assumption|]. split; [exact Hr|]. split; [exact Hc|].
  cbn [snd]. intros ->. discriminate.
Qed.

Lemma write_order_gen : forall U (wr : outstream E U -> nat * mat D * conversion -> outcome (outstream E U)),
  (forall st si m c st', wr st (si, m, c) = Ok st' ->
     write_checks E (os_ix E U st) (os_si E U st) si m c = Ok tt
     /\ os_ix E U st' = os_ix E U st /\ os_si E U st' = os_si E U st + 1) ->
  forall h st st', write_history E wr h st = Ok st' ->
  map (fun w => fst (fst w)) h = seq (os_si E U st) (length h)
  /\ os_si E U st' = os_si E U st + length h /\ os_ix E U st' = os_ix E U st
  /\ Forall2 (fun s w => fits_sector E s (snd (fst w), snd w))
       (firstn (length h) (skipn (os_si E U st) (ix_sectors E (os_ix E U st)))) h.
Proof.
  intros U wr Hwr. induction h as [|[[si m] c] h IH]; intros st st' H.
  - cbn [write_history] in H. apply Ok_inj in H. subst st'. cbn [map seq length firstn].
    rewrite Nat.add_0_r. repeat split; constructor.
  - cbn [write_history] in H. apply bind_ok in H. destruct H as (st1 & H1 & H).
    destruct (Hwr _ _ _ _ _ H1) as (Hck & Hix & Hsi).
    destruct (write_checks_inv _ _ _ _ _ Hck) as (s & Hs & -> & Hfit).
    destruct (IH _ _ H) as (Ha & Hb & Hc & Hd). rewrite Hsi, Hix in *.
    cbn [map length seq fst snd]. rewrite Ha.
    assert (Hsk : skipn (os_si E U st) (ix_sectors E (os_ix E U st)) = s :: skipn (os_si E U st + 1) (ix_sectors E (os_ix E U st))).
    { clear -Hs. revert Hs. generalize (ix_sectors E (os_ix E U st)). generalize (os_si E U st).
      induction n as [|n IHn]; intros [|x l] Hs; try discriminate Hs.
      - simpl in Hs. injection Hs as ->. reflexivity.
      - simpl in Hs. simpl. apply IHn. assumption. }
    rewrite Hsk. cbn [firstn]. rewrite Nat.add_1_r in *.
    split; [reflexivity|]. split; [lia|]. split; [assumption|]. constructor; [exact Hfit|exact Hd].
Qed.

Lemma write_bin_step : forall st si m c st', write_sector_bin E st (si, m, c) = Ok st' ->
  write_checks E (os_ix E Z st) (os_si E Z st) si m c = Ok tt
  /\ os_ix E Z st' = os_ix E Z st /\ os_si E Z st' = os_si E Z st + 1.
Proof.
  intros st si m c st' H. unfold write_sector_bin in H. apply bind_ok in H. destruct H as ([] & H1 & H).
  apply bind_ok in H. destruct H as (b & _ & H). apply Ok_inj in H. subst st'. auto.
Qed.
Lemma write_txt_step : forall st si m c st', write_sector_txt E st (si, m, c) = Ok st' ->
  write_checks E (os_ix E line st) (os_si E line st) si m c = Ok tt
  /\ os_ix E line st' = os_ix E line st /\ os_si E line st' = os_si E line st + 1.
Proof.
  intros st si m c st' H. unfold write_sector_txt in H. apply bind_ok in H. destruct H as ([] & H1 & H).
  apply bind_ok in H. destruct H as (b & _ & H). apply Ok_inj in H. subst st'. auto.
Qed.

Lemma order_finish : forall U ix (st st' : outstream E U) h, os_ix E U st = ix -> os_si E U st = 0 ->
  map (fun w => fst (fst w)) h = seq (os_si E U st) (length h)
  /\ os_si E U st' = os_si E U st + length h /\ os_ix E U st' = os_ix E U st
  /\ Forall2 (fun s (w : nat * mat D * conversion) => fits_sector E s (snd (fst w), snd w))
       (firstn (length h) (skipn (os_si E U st) (ix_sectors E (os_ix E U st)))) h -> in_order E ix h.
Proof.
  intros U ix st st' h Hix H0 (Ha & _ & _ & Hd). rewrite H0, Hix in *. cbn [skipn] in Hd.
  split; [assumption|]. split; [|assumption].
  apply Forall2_len in Hd. rewrite firstn_length in Hd. lia.
Qed.

Lemma write_order_bin : forall f ix h data, write_file_bin E f ix h = Ok data -> in_order E ix h.
Proof.
  intros f ix h data H. unfold write_file_bin in H. apply bind_ok in H. destruct H as (st & Hst & H).
  apply bind_ok in H. destruct H as (st' & H & _).
  assert (os_ix E Z st = ix /\ os_si E Z st = 0) as [H1 H2].
  { unfold create_bin in Hst. apply bind_ok in Hst. destruct Hst as (hd & _ & Hst). apply Ok_inj in Hst. subst st. auto. }
  eapply order_finish; [exact H1|exact H2|]. eapply write_order_gen; [|exact H]. apply write_bin_step.
Qed.
Lemma write_order_txt : forall f ix h file, write_file_txt E f ix h = Ok file -> in_order E ix h.
Proof.
  intros f ix h data H. unfold write_file_txt in H. apply bind_ok in H. destruct H as (st & Hst & H).
  apply bind_ok in H. destruct H as (st' & H & _).
  assert (os_ix E line st = ix /\ os_si E line st = 0) as [H1 H2].
  { unfold create_txt in Hst. apply bind_ok in Hst. destruct Hst as (hd & _ & Hst). apply Ok_inj in Hst. subst st. auto. }
  eapply order_finish; [exact H1|exact H2|]. eapply write_order_gen; [|exact H]. apply write_txt_step.
Qed.

(** an incomplete history leaves a beginning of the file of any completion *)
Lemma write_prefix_gen : forall U (wr : outstream E U -> nat * mat D * conversion -> outcome (outstream E U)),
  (forall st w st', wr st w = Ok st' -> exists x, os_out E U st' = os_out E U st ++ x) ->
  forall h1 h2 st st1 st2, write_history E wr h1 st = Ok st1 -> write_history E wr (h1 ++ h2) st = Ok st2 ->
  exists x, os_out E U st2 = os_out E U st1 ++ x.
Proof.
  intros U wr Hwr.
  assert (G : forall h st st', write_history E wr h st = Ok st' -> exists x, os_out E U st' = os_out E U st ++ x).
  { induction h as [|w h IH]; intros st st' H; cbn [write_history] in H.
    - apply Ok_inj in H. subst. exists []. rewrite app_nil_r. reflexivity.
    - apply bind_ok in H. destruct H as (st1 & H1 & H). destruct (Hwr _ _ _ H1) as (x & Hx).
      destruct (IH _ _ H) as (y & Hy). exists (x ++ y). rewrite Hy, Hx, app_assoc. reflexivity. }
  induction h1 as [|w h1 IH]; intros h2 st st1 st2 H1 H2; cbn [write_history app] in *.
  - apply Ok_inj in H1. subst. apply (G h2). assumption.
  - apply bind_ok in H1. destruct H1 as (s1 & Hs1 & H1). rewrite Hs1 in H2. cbn [bind] in H2. eapply IH; eassumption.
Qed.

Lemma write_prefix_bin : forall f ix h1 h2 d1 d2, write_file_bin E f ix h1 = Ok d1 ->
  write_file_bin E f ix (h1 ++ h2) = Ok d2 -> exists x, d2 = d1 ++ x.
Proof.
  intros f ix h1 h2 d1 d2 H1 H2. unfold write_file_bin in *.
  apply bind_ok in H1. destruct H1 as (st & Hst & H1). rewrite Hst in H2. cbn [bind] in H2.
  apply bind_ok in H1. destruct H1 as (s1 & H1 & E1). apply Ok_inj in E1. subst d1.
  apply bind_ok in H2. destruct H2 as (s2 & H2 & E2). apply Ok_inj in E2. subst d2.
  eapply write_prefix_gen; [|exact H1|exact H2].
  intros s [[si m] c] s' H. unfold write_sector_bin in H.
  apply bind_ok in H. destruct H as (u & _ & H). apply bind_ok in H. destruct H as (b & _ & H). apply Ok_inj in H. subst s'.
  eexists. reflexivity.
Qed.

(** * Labels in text files *)
Lemma t_GetLine_fuel_nonblank : forall n st l st', t_GetLine_fuel E n st = (l, st') -> l <> [] ->
  exists rest, nonblank E (skipn (t_pos E st) (f_lines E (t_file E st))) = l :: rest
  /\ nonblank E (skipn (t_pos E st') (f_lines E (t_file E st))) = rest.
Proof.
  assert (Hsk : forall A (l : list A) i x, nth_error l i = Some x -> skipn i l = x :: skipn (S i) l).
  { clear. intros A l i. revert l. induction i as [|i IH]; intros [|y l] x H; try discriminate H.
    - simpl in H. injection H as ->. reflexivity.
    - simpl in H. cbn [skipn]. rewrite (IH _ _ H). reflexivity. }
  induction n as [|n IH]; intros st l st' H Hl; cbn [t_GetLine_fuel] in H.
  - unfold t_getline in H. destruct (t_fail E st || t_eof E st); [inversion H; subst; congruence|].
    destruct (nth_error (f_lines E (t_file E st)) (t_pos E st)) as [ln|] eqn:Hn; [|inversion H; subst; congruence].
    destruct ln as [|w ln]; injection H as <- <-; [congruence|].
    rewrite (Hsk _ _ _ _ Hn). cbn [t_pos nonblank filter]. eexists. split; reflexivity.
  - unfold t_getline in H. destruct (t_fail E st || t_eof E st).
    { cbn [t_fail] in H. inversion H; subst; congruence. }
    destruct (nth_error (f_lines E (t_file E st)) (t_pos E st)) as [ln|] eqn:Hn.
    2:{ cbn [t_fail] in H. inversion H; subst; congruence. }
    destruct ln as [|w ln].
    + cbn [t_fail] in H. destruct (IH _ _ _ H Hl) as (rest & H1 & H2). cbn [t_pos t_file] in H1, H2.
      exists rest. rewrite (Hsk _ _ _ _ Hn). cbn [nonblank filter]. split; assumption.
    + injection H as <- <-. rewrite (Hsk _ _ _ _ Hn). cbn [t_pos nonblank filter]. eexists. split; reflexivity.
Qed.

Lemma rd_line_blank : forall f np bra ket b k x, rd_line E f np bra ket b k [] <> Ok x.
Proof. intros [] np bra ket b k x; discriminate. Qed.

Lemma rd_loop_lines : forall f np s l m st m' st', NoDup l ->
  loop2 l (rd_body_txt E f np s) (m, st) = Ok (m', st') ->
  let L := nonblank E (skipn (t_pos E st) (f_lines E (t_file E st))) in
  (forall j b k, nth_error l j = Some (b, k) -> exists ln x,
     nth_error L j = Some ln
     /\ rd_line E f np (s_bra s) (s_ket s) (nth b (ss_states (s_bra s)) (0,0)) (nth k (ss_states (s_ket s)) (0,0)) ln = Ok x
     /\ at_ m' b k = widen E x)
  /\ (forall b k, ~ In (b, k) l -> at_ m' b k = at_ m b k)
  /\ rows m' = rows m /\ cols m' = cols m.
Proof.
  induction l as [|[b0 k0] l IH]; intros m st m' st' Hnd H L.
  - cbn [loop2] in H. injection H as <- <-. split; [intros [|j]; discriminate|]. auto.
  - cbn [loop2] in H. apply bind_ok in H. destruct H as ([m1 st1] & H1 & H).
    inversion Hnd as [|x y Hnin Hnd']; subst.
    unfold rd_body_txt in H1.
    apply bind_ok in H1. destruct H1 as (bs & Hb & H1). apply get_ok in Hb.
    apply bind_ok in H1. destruct H1 as (ks & Hk & H1). apply get_ok in Hk.
    destruct (t_GetLine E st) as [ln st2] eqn:Hg.
    apply bind_ok in H1. destruct H1 as (x & Hx & H1). injection H1 as <- <-.
    assert (Hne : ln <> []) by (intros ->; apply rd_line_blank in Hx; assumption).
    destruct (t_GetLine_fuel_nonblank _ _ _ _ Hg Hne) as (rest & HL1 & HL2).
    pose proof (t_GetLine_file E st) as Hfile. rewrite Hg in Hfile. cbn [snd] in Hfile.
    destruct (IH _ _ _ _ Hnd' H) as (HA & HB & HC & HD).
    rewrite Hfile, HL2 in HA. fold L in HL1. rewrite HL1.
    split; [|split; [|split]].
    + intros [|j] b k Hj.
      * cbn [nth_error] in Hj |- *. injection Hj as <- <-. exists ln, x. split; [reflexivity|].
        rewrite (nth_error_nth _ _ (0,0) Hb), (nth_error_nth _ _ (0,0) Hk).
        split; [assumption|]. rewrite HB by assumption. cbn [at_ mset]. rewrite !Nat.eqb_refl. reflexivity.
      * cbn [nth_error] in Hj |- *. apply HA. assumption.
    + intros b k Hn. rewrite HB by (intros G; apply Hn; right; assumption). cbn [at_ mset].
      destruct (Nat.eqb_spec b b0); [|reflexivity]. destruct (Nat.eqb_spec k k0); [|reflexivity].
      subst. destruct Hn. left. reflexivity.
    + rewrite HC. reflexivity.
    + rewrite HD. reflexivity.
Qed.

Lemma NoDup_elems : forall s, NoDup (elems s).
Proof. intros. apply NoDup_filter. apply NoDup_pairs. Qed.

Lemma scan_int_inv : forall l z l', scan_int E l = Ok (z, l') -> l = WInt z :: l' /\ in_i32 z = true.
Proof.
  intros [|[z0|t] l] z l' H; try discriminate H. cbn [scan_int] in H.
  destruct (in_i32 z0) eqn:Hz; [|discriminate]. injection H as <- <-. auto.
Qed.
Lemma scan_float_inv : forall l x l', scan_float E l = Ok (x, l') -> exists w, l = w :: l' /\ scan_f E w = Some x.
Proof.
  intros [|w l] x l' H; [discriminate H|]. cbn [scan_float] in H. destruct (scan_f E w) eqn:Hw; [|discriminate].
  injection H as <- <-. eauto.
Qed.

Lemma label_ok_exact : forall i a off, in_i32 i = true -> (0 <= Z.of_nat a + off < two31)%Z ->
  label_ok i a off = true -> i = (Z.of_nat a + off)%Z.
Proof.
  intros i a off Hi Ha H. unfold label_ok in H. apply Z.eqb_eq in H. apply in_i32_iff in Hi.
  unfold u64 in H. rewrite (Z.mod_small (Z.of_nat a + off)) in H by (unfold two31, two64 in *; lia).
  destruct (Z.neg_nonneg_cases i) as [Hn|Hp].
  - exfalso. replace i with ((i + two64) + (-1) * two64)%Z in H by lia.
    rewrite Z_mod_plus_full, Z.mod_small in H by (unfold two31, two64 in *; lia).
    unfold two31, two64 in *. lia.
  - rewrite Z.mod_small in H by (unfold two31, two64 in *; lia). assumption.
Qed.

Lemma label_offset : forall f np sp a, (Z.of_nat (np + a + 1) < two31)%Z ->
  (Z.of_nat a + match f with V15200 => index_offset np sp | _ => 1 end)%Z = orbital_label f np sp a.
Proof.
  intros f np sp a H. unfold orbital_label. destruct f; try (destruct sp; lia).
  destruct sp; unfold index_offset; [lia|]. rewrite i32_id by (apply in_i32_iff; unfold two31 in *; lia). lia.
Qed.

Lemma rd_line_carries : forall f np s b k ln x, held s b k -> labels_fit np s -> J_fits s ->
  rd_line E f np (s_bra s) (s_ket s) (nth b (ss_states (s_bra s)) (0,0)) (nth k (ss_states (s_ket s)) (0,0)) ln = Ok x ->
  line_carries E f np s b k ln x.
Proof.
  intros f np s b k ln x (Hb & Hk & _) Hlab (HJb & HJk) H.
  pose proof (nth_In _ (0, 0) Hb) as Ib. pose proof (nth_In _ (0, 0) Hk) as Ik.
  unfold line_carries, element_labels.
  destruct (nth b (ss_states (s_bra s)) (0, 0)) as [b1 b2]. destruct (nth k (ss_states (s_ket s)) (0, 0)) as [k1 k2].
  destruct (Hlab b1 b2 (or_introl Ib)) as [B1 B2]. destruct (Hlab k1 k2 (or_intror Ik)) as [K1 K2].
  assert (Hr : forall sp a, (Z.of_nat (np + a + 1) < two31)%Z ->
     (0 <= Z.of_nat a + match f with V15200 => index_offset np sp | _ => 1 end < two31)%Z).
  { intros sp a Ha. rewrite label_offset by assumption. unfold orbital_label. unfold two31 in *. destruct f, sp; lia. }
  destruct f; cbn [rd_line] in H.
  - unfold rd_line_0 in H.
    do 6 (apply bind_ok in H; let p := fresh "p" in let G := fresh "G" in destruct H as (p & G & H); destruct p as [? ?];
          apply scan_int_inv in G; destruct G as [-> ?]).
    apply bind_ok in H. destruct H as ([x' l'] & Hx & H). apply scan_float_inv in Hx. destruct Hx as (w & -> & Hx).
    apply bind_ok in H. destruct H as (u & Hc & H). apply check_ok in Hc. injection H as <-. cbn [fst snd] in Hc.
    rewrite !andb_true_iff in Hc. destruct Hc as (((((C1 & C2) & C3) & C4) & C5) & C6).
    apply label_ok_exact in C1; [|assumption|exact (Hr SP _ B1)]. apply label_ok_exact in C2; [|assumption|exact (Hr SP _ B2)].
    apply label_ok_exact in C3; [|assumption|exact (Hr SP _ K1)]. apply label_ok_exact in C4; [|assumption|exact (Hr SP _ K2)].
    apply Z.eqb_eq in C5, C6. rewrite i32_id in C5 by assumption. subst.
    exists w, l'. split; [|assumption]. unfold orbital_label. cbn [map app].
    rewrite !Nat2Z.inj_add. unfold species_number, species_code. reflexivity.
  - unfold rd_line_15099 in H.
    do 7 (apply bind_ok in H; let p := fresh "p" in let G := fresh "G" in destruct H as (p & G & H); destruct p as [? ?];
          apply scan_int_inv in G; destruct G as [-> ?]).
    apply bind_ok in H. destruct H as ([x' l'] & Hx & H). apply scan_float_inv in Hx. destruct Hx as (w & -> & Hx).
    apply bind_ok in H. destruct H as (u & Hc & H). apply check_ok in Hc. injection H as <-. cbn [fst snd] in Hc.
    rewrite !andb_true_iff in Hc. destruct Hc as ((((((C1 & C2) & C3) & C4) & C5) & C6) & C7).
    apply label_ok_exact in C1; [|assumption|exact (Hr SP _ B1)]. apply label_ok_exact in C2; [|assumption|exact (Hr SP _ B2)].
    apply label_ok_exact in C3; [|assumption|exact (Hr SP _ K1)]. apply label_ok_exact in C4; [|assumption|exact (Hr SP _ K2)].
    apply Z.eqb_eq in C5, C6, C7. rewrite i32_id in C5, C6 by assumption. subst.
    exists w, l'. split; [|assumption]. unfold orbital_label. cbn [map app].
    rewrite !Nat2Z.inj_add. unfold species_number, species_code. reflexivity.
  - unfold rd_line_15200 in H.
    do 6 (apply bind_ok in H; let p := fresh "p" in let G := fresh "G" in destruct H as (p & G & H); destruct p as [? ?];
          apply scan_int_inv in G; destruct G as [-> ?]).
    apply bind_ok in H. destruct H as ([x' l'] & Hx & H). apply scan_float_inv in Hx. destruct Hx as (w & -> & Hx).
    apply bind_ok in H. destruct H as (u & Hc & H). apply check_ok in Hc. injection H as <-. cbn [fst snd] in Hc.
    rewrite !andb_true_iff in Hc. destruct Hc as (((((C1 & C2) & C3) & C4) & C5) & C6).
    apply label_ok_exact in C1; [|assumption|exact (Hr _ _ B1)]. apply label_ok_exact in C2; [|assumption|exact (Hr _ _ B2)].
    apply label_ok_exact in C3; [|assumption|exact (Hr _ _ K1)]. apply label_ok_exact in C4; [|assumption|exact (Hr _ _ K2)].
    apply Z.eqb_eq in C5, C6. rewrite i32_id in C5, C6 by assumption.
    change (sp1 (ss_species (s_bra s))) with (species1 (ss_species (s_bra s))) in C1.
    change (sp2 (ss_species (s_bra s))) with (species2 (ss_species (s_bra s))) in C2.
    change (sp1 (ss_species (s_ket s))) with (species1 (ss_species (s_ket s))) in C3.
    change (sp2 (ss_species (s_ket s))) with (species2 (ss_species (s_ket s))) in C4.
    rewrite (label_offset V15200) in C1, C2, C3, C4 by assumption. subst.
    exists w, l'. split; [|assumption]. reflexivity.
Qed.

Lemma text_labels : forall f ix i s st m st', nth_error (ix_sectors E ix) i = Some s ->
  labels_fit (length (ix_p E ix)) s -> J_fits s ->
  rd_txt E f ix i st = Ok (m, st') ->
  let L := nonblank E (skipn (t_pos E st) (f_lines E (t_file E st))) in
  (forall j b k, nth_error (held_list s) j = Some (b, k) -> exists ln x,
     nth_error L j = Some ln /\ line_carries E f (length (ix_p E ix)) s b k ln x /\ at_ m b k = widen E x)
  /\ (forall b k, ~ held s b k -> at_ m b k = d0 E)
  /\ rows m = length (ss_states (s_bra s)) /\ cols m = length (ss_states (s_ket s)).
Proof.
  intros f ix i s st m st' Hs Hlab HJ H L.
  apply rd_txt_inv in H. destruct H as (s' & Hs' & _ & _ & H). rewrite Hs in Hs'. injection Hs' as <-.
  rewrite rd_loop_txt_filter in H. apply rd_loop_lines in H; [|apply NoDup_elems].
  destruct H as (HA & HB & HC & HD). rewrite held_list_elems. split; [|split; [|split]].
  - intros j b k Hj. destruct (HA j b k Hj) as (ln & x & H1 & H2 & H3). exists ln, x. split; [assumption|].
    split; [|assumption]. apply rd_line_carries; auto. apply in_elems. eapply nth_error_In; eauto.
  - intros b k Hn. rewrite HB; [reflexivity|]. rewrite in_elems. assumption.
  - rewrite HC. reflexivity.
  - rewrite HD. reflexivity.
Qed.

(** the text reader never runs into undefined behaviour or an assertion *)
Lemma rd_line_ok_exit : forall f np bra ket b k l, (exists x, rd_line E f np bra ket b k l = Ok x) \/ rd_line E f np bra ket b k l = Exit.
Proof.
  assert (Hint : forall l, (exists p, scan_int E l = Ok p) \/ scan_int E l = Exit).
  { intros [|[z|t] l]; simpl; auto. destruct (in_i32 z); eauto. }
  assert (Hfl : forall l, (exists p, scan_float E l = Ok p) \/ scan_float E l = Exit).
  { intros [|w l]; simpl; auto. destruct (scan_f E w); eauto. }
  assert (Hck : forall b, check b = Ok tt \/ check b = Exit) by (intros []; auto).
  intros f np bra ket b k l. destruct f; cbn [rd_line];
    [unfold rd_line_0|unfold rd_line_15099|unfold rd_line_15200];
    repeat match goal with
    | |- context [scan_int E ?l] => destruct (Hint l) as [[[? ?] ->]| ->]; cbn [bind]; [|right; reflexivity]
    | |- context [scan_float E ?l] => destruct (Hfl l) as [[[? ?] ->]| ->]; cbn [bind]; [|right; reflexivity]
    end;
    match goal with |- context [check ?b] => destruct (Hck b) as [-> | ->]; cbn [bind]; eauto end.
Qed.

Lemma text_ok_exit : forall f ix i s st, nth_error (ix_sectors E ix) i = Some s -> canonical_sector s ->
  (f = V0 -> s_bi s = s_ki s) -> is_ok (rd_txt E f ix i st) \/ rd_txt E f ix i st = Exit.
Proof.
  intros f ix i s st Hs Hc Hd. unfold rd_txt. rewrite Hs. cbn [get bind].
  rewrite (canonical_upper s Hc). cbn [cassert bind].
  assert (Hdd : (match f with V0 => cassert (is_diag s) | _ => Ok tt end) = Ok tt).
  { destruct f; try reflexivity. unfold is_diag. rewrite (proj2 (Nat.eqb_eq _ _) (Hd eq_refl)). reflexivity. }
  rewrite Hdd. cbn [bind]. rewrite rd_loop_txt_filter.
  assert (G : forall l m st, (forall b k, In (b, k) l -> held s b k) ->
    is_ok (loop2 l (rd_body_txt E f (length (ix_p E ix)) s) (m, st)) \/ loop2 l (rd_body_txt E f (length (ix_p E ix)) s) (m, st) = Exit).
  { induction l as [|[b k] l IH]; intros m st' Hin; [left; eexists; reflexivity|].
    cbn [loop2]. destruct (Hin b k (or_introl eq_refl)) as (Hb & Hk & _).
    unfold rd_body_txt at 1 3. rewrite (nth_error_nth' _ _ _ (0, 0) Hb), (nth_error_nth' _ _ _ (0, 0) Hk). cbn [get bind].
    destruct (t_GetLine E st') as [ln st2].
    destruct (rd_line_ok_exit f (length (ix_p E ix)) (s_bra s) (s_ket s) (nth b (ss_states (s_bra s)) (0,0)) (nth k (ss_states (s_ket s)) (0,0)) ln) as [[x ->]| ->]; cbn [bind].
    - apply IH. intros b' k' H'. apply Hin. right. assumption.
    - right. reflexivity. }
  apply G. intros b k H. apply in_elems. assumption.
Qed.
End Extra.
