(** Sector-level reads, skips and writes: positions and contents. *)
From Coq Require Import String List ZArith Lia Bool.
From Verif Require Import Base BaseLemmas H2Model H2Spec H2Elements.
Import ListNotations.
Open Scope nat_scope.

Section Sectors.
Variable E : env.
Notation D := (dbl E).
Notation line := (list (word (txt E))).

(** * Binary *)

Lemma b_read_good : forall k d p bs s', b_read k (BSt d p false false) = (Some bs, s') ->
  s' = BSt d (p + k) false false /\ bs = firstn k (skipn p d) /\ (k = 0 \/ p + k <= length d).
Proof.
  intros k d p bs s' H. unfold b_read in H. simpl in H.
  destruct (Nat.eqb_spec k 0) as [->|Hk]; simpl in H.
  - injection H as <- <-. auto.
  - destruct (Nat.leb_spec (p + k) (length d)); [|discriminate].
    injection H as <- <-. auto.
Qed.

Lemma b_read_none : forall k s s', b_read k s = (None, s') -> b_fail s' = true.
Proof.
  intros k s s' H. unfold b_read in H.
  destruct (b_fail s || b_eof s).
  - injection H as <-. reflexivity.
  - destruct (Nat.eqb k 0 || Nat.leb (b_pos s + k) (length (b_data s))); [discriminate|].
    injection H as <-. reflexivity.
Qed.

Lemma b_read_bad : forall k s bs s', b_read k s = (Some bs, s') -> b_fail s = false /\ b_eof s = false.
Proof.
  intros k s bs s' H. unfold b_read in H.
  destruct (b_fail s), (b_eof s); simpl in H; try discriminate. auto.
Qed.

Lemma bst_eta : forall s, b_fail s = false -> b_eof s = false -> s = BSt (b_data s) (b_pos s) false false.
Proof. intros [d p e f]; simpl; intros -> ->; reflexivity. Qed.

Lemma verify_ok : forall v s s', verify v s = Ok s' ->
  b_fail s = false /\ b_eof s = false /\ s' = BSt (b_data s) (b_pos s + 4) false false
  /\ b_pos s + 4 <= length (b_data s).
Proof.
  intros v s s' H. unfold verify, rd_i32 in H.
  destruct (b_read 4 s) as [[bs|] s1] eqn:Hr; simpl in H; [|discriminate].
  destruct (check (dec_i32 bs =? i32 v)%Z) eqn:Hc; simpl in H; try discriminate.
  injection H as <-.
  destruct (b_read_bad _ _ _ _ Hr) as [Hf He]. split; [assumption|]. split; [assumption|].
  rewrite (bst_eta s Hf He) in Hr. apply b_read_good in Hr. destruct Hr as (-> & _ & [Hx|Hx]); [discriminate|].
  auto.
Qed.

Lemma rd_buffer_good : forall n d p buf s', rd_buffer n (BSt d p false false) = (buf, s') ->
  b_fail s' = false ->
  s' = BSt d (p + 4 * n) false false /\ buf = dec_words n (firstn (4 * n) (skipn p d))
  /\ (n = 0 \/ p + 4 * n <= length d).
Proof.
  intros n d p buf s' H Hf. unfold rd_buffer in H.
  destruct (b_read (4 * n) (BSt d p false false)) as [[bs|] s1] eqn:Hr.
  - apply b_read_good in Hr. destruct Hr as (-> & -> & Hd). injection H as <- <-.
    split; [reflexivity|]. split; [reflexivity|]. destruct Hd; [left; lia|right; assumption].
  - injection H as <- <-. apply b_read_none in Hr. congruence.
Qed.

Lemma rd_buffer_len : forall n s buf s', rd_buffer n s = (buf, s') -> length buf = n.
Proof.
  intros n s buf s' H. unfold rd_buffer in H. destruct (b_read (4 * n) s) as [[bs|] s1].
  - injection H as <- <-. apply dec_words_length.
  - injection H as <- <-. apply repeat_length.
Qed.

Lemma rd_buffer_fail : forall n s buf s', b_fail s = true -> rd_buffer n s = (buf, s') -> b_fail s' = true.
Proof.
  intros n s buf s' Hf H. unfold rd_buffer in H.
  destruct (b_read (4 * n) s) as [[bs|] s1] eqn:Hr.
  - apply b_read_bad in Hr. destruct Hr; congruence.
  - injection H as <- <-. eapply b_read_none; eauto.
Qed.

(** bytes occupied by sector i in the file, including record delimiters *)
Definition has_records (f : format) : bool := match f with V15200 => false | _ => true end.
Definition okb (o : outcome bool) : bool := match o with Ok b => b | _ => false end.
Definition delim_bytes (b : bool) : nat := if b then 4 else 0.
Definition sec_bytes (f : format) (ix : indexing E) (i : nat) : nat :=
  match nth_error (ix_sectors E ix) i with
  | Some s =>
      delim_bytes (has_records f && okb (first_of_type (ix_sectors E ix) i))
      + 4 * sector_entries s
      + delim_bytes (has_records f && okb (last_of_type (ix_sectors E ix) i))
  | None => 0
  end.

Lemma verify_if_ok : forall b v d p s', verify_if b v (BSt d p false false) = Ok s' ->
  s' = BSt d (p + delim_bytes b) false false /\ (b = false \/ p + 4 <= length d).
Proof.
  intros [] v d p s' H; simpl in H.
  - apply verify_ok in H. simpl in H. destruct H as (_ & _ & -> & H). auto.
  - injection H as <-. simpl. rewrite Nat.add_0_r. auto.
Qed.
Lemma verify_if_fail : forall b v s s', b_fail s = true -> verify_if b v s = Ok s' -> b_fail s' = true.
Proof.
  intros [] v s s' Hf H; simpl in H.
  - apply verify_ok in H. destruct H as (H & _). congruence.
  - injection H as <-. assumption.
Qed.

(** version 0 computes its delimiter in int arithmetic *)
Definition verify0 (sectors : list sector) (s : sector) (b : bool) (st : bstate) : outcome bstate :=
  if b then bind (delimiter_0 sectors s) (fun v => verify v st) else Ok st.
Lemma verify0_ok : forall ss s b d p s', verify0 ss s b (BSt d p false false) = Ok s' ->
  s' = BSt d (p + delim_bytes b) false false /\ (b = false \/ p + 4 <= length d).
Proof.
  intros ss s [] d p s' H; simpl in H.
  - apply bind_ok in H. destruct H as (v & _ & H).
    apply verify_ok in H. simpl in H. destruct H as (_ & _ & -> & H). auto.
  - injection H as <-. simpl. rewrite Nat.add_0_r. auto.
Qed.
Lemma verify0_fail : forall ss s b st s', b_fail st = true -> verify0 ss s b st = Ok s' -> b_fail s' = true.
Proof.
  intros ss s [] st s' Hf H; simpl in H.
  - apply bind_ok in H. destruct H as (v & _ & H). apply verify_ok in H. destruct H as (H & _). congruence.
  - injection H as <-. assumption.
Qed.

(** the three binary readers in one form *)
Lemma rd_bin_inv : forall f ix i st m st', rd_bin E f ix i st = Ok (m, st') ->
  exists s (vf : bool -> bstate -> outcome bstate) bf bl s1 buf s2,
    nth_error (ix_sectors E ix) i = Some s
    /\ is_upper s = true
    /\ (f = V0 -> is_diag s = true)
    /\ ((forall b d p s', vf b (BSt d p false false) = Ok s' ->
           s' = BSt d (p + delim_bytes b) false false /\ (b = false \/ p + 4 <= length d))
        /\ (forall b s s', b_fail s = true -> vf b s = Ok s' -> b_fail s' = true))
    /\ bf = has_records f && okb (first_of_type (ix_sectors E ix) i)
    /\ bl = has_records f && okb (last_of_type (ix_sectors E ix) i)
    /\ vf bf st = Ok s1
    /\ rd_buffer (sector_entries s) s1 = (buf, s2)
    /\ rd_loop_bin E s buf = Ok m
    /\ vf bl s2 = Ok st'.
Proof.
  intros f ix i st m st' H.
  destruct f; simpl in H.
  - unfold rd_bin_0 in H. apply bind_ok in H. destruct H as (s & Hs & H). apply get_ok in Hs.
    apply bind_ok in H. destruct H as ([] & Hu & H). apply cassert_ok in Hu.
    apply bind_ok in H. destruct H as ([] & Hd & H). apply cassert_ok in Hd.
    apply bind_ok in H. destruct H as (bf & Hbf & H).
    apply bind_ok in H. destruct H as (s1 & Hs1 & H).
    destruct (rd_buffer (sector_entries s) s1) as [buf s2] eqn:Hb.
    apply bind_ok in H. destruct H as (m' & Hm & H).
    apply bind_ok in H. destruct H as (bl & Hbl & H).
    apply bind_ok in H. destruct H as (s3 & Hs3 & H). injection H as <- <-.
    exists s, (verify0 (ix_sectors E ix) s), bf, bl, s1, buf, s2.
    rewrite Hbf, Hbl. simpl.
    repeat (split; [first [assumption | reflexivity | (intros; assumption) |
      (split; [exact (verify0_ok _ _) | exact (verify0_fail _ _)])]|]). assumption.
  - unfold rd_bin_15099 in H. apply bind_ok in H. destruct H as (s & Hs & H). apply get_ok in Hs.
    apply bind_ok in H. destruct H as ([] & Hu & H). apply cassert_ok in Hu.
    apply bind_ok in H. destruct H as (bf & Hbf & H).
    apply bind_ok in H. destruct H as (s1 & Hs1 & H).
    destruct (rd_buffer (sector_entries s) s1) as [buf s2] eqn:Hb.
    apply bind_ok in H. destruct H as (m' & Hm & H).
    apply bind_ok in H. destruct H as (bl & Hbl & H).
    apply bind_ok in H. destruct H as (s3 & Hs3 & H). injection H as <- <-.
    exists s, (fun b => verify_if b (delimiter (ix_sectors E ix) s)), bf, bl, s1, buf, s2.
    rewrite Hbf, Hbl. simpl.
    repeat (split; [first [assumption | reflexivity | discriminate |
      (split; intros; [eapply verify_if_ok; eassumption | eapply verify_if_fail; eassumption])]|]). assumption.
  - unfold rd_bin_15200 in H. apply bind_ok in H. destruct H as (s & Hs & H). apply get_ok in Hs.
    apply bind_ok in H. destruct H as ([] & Hu & H). apply cassert_ok in Hu.
    destruct (rd_buffer (sector_entries s) st) as [buf s2] eqn:Hb.
    apply bind_ok in H. destruct H as (m' & Hm & H). injection H as <- <-.
    exists s, (fun b => verify_if b 0%Z), false, false, st, buf, s2. simpl.
    repeat (split; [first [assumption | reflexivity | discriminate |
      (split; intros; [eapply verify_if_ok; eassumption | eapply verify_if_fail; eassumption])]|]). reflexivity.
Qed.

Lemma rd_bin_pos : forall f ix i d p m s', rd_bin E f ix i (BSt d p false false) = Ok (m, s') ->
  b_fail s' = false ->
  s' = BSt d (p + sec_bytes f ix i) false false
  /\ (sec_bytes f ix i = 0 \/ p + sec_bytes f ix i <= length d).
Proof.
  intros f ix i d p m s' H Hf.
  apply rd_bin_inv in H.
  destruct H as (s & vf & bf & bl & s1 & buf & s2 & Hs & _ & _ & (Hv & Hvf) & Hbf & Hbl & H1 & H2 & _ & H3).
  apply Hv in H1. destruct H1 as [-> Hp1].
  destruct (b_fail s2) eqn:Ef2.
  { rewrite (Hvf _ _ _ Ef2 H3) in Hf. discriminate. }
  apply rd_buffer_good in H2; [|assumption]. destruct H2 as (-> & _ & Hp2).
  apply Hv in H3. destruct H3 as [-> Hp3].
  unfold sec_bytes. rewrite Hs, <- Hbf, <- Hbl.
  split; [f_equal; lia|].
  destruct bl; simpl delim_bytes in *.
  - destruct Hp3 as [Hx|Hp3]; [discriminate|]. right. lia.
  - destruct Hp2 as [Hp2|Hp2].
    + rewrite Hp2. destruct bf; simpl delim_bytes in *.
      * destruct Hp1 as [Hx|Hp1]; [discriminate|]. right. lia.
      * left. lia.
    + right. lia.
Qed.

Lemma rd_bin_fail : forall f ix i s m s', b_fail s = true -> rd_bin E f ix i s = Ok (m, s') -> b_fail s' = true.
Proof.
  intros f ix i st m s' Hf H. apply rd_bin_inv in H.
  destruct H as (s & vf & bf & bl & s1 & buf & s2 & _ & _ & _ & (_ & Hvf) & _ & _ & H1 & H2 & _ & H3).
  eapply Hvf; [|exact H3]. eapply rd_buffer_fail; [|exact H2]. eapply Hvf; eassumption.
Qed.

Lemma seek_cur_good : forall k d p, b_seek_cur k (BSt d p false false) = BSt d (p + k) false false.
Proof. reflexivity. Qed.
Lemma seek_cur_fail : forall k s, b_fail s = true -> b_fail (b_seek_cur k s) = true.
Proof. intros k s H. unfold b_seek_cur. rewrite H. reflexivity. Qed.

Lemma sk_bin_inv : forall f ix i st st', sk_bin E f ix i st = Ok st' ->
  exists s bf bl s1,
    nth_error (ix_sectors E ix) i = Some s
    /\ bf = has_records f && okb (first_of_type (ix_sectors E ix) i)
    /\ bl = has_records f && okb (last_of_type (ix_sectors E ix) i)
    /\ verify_if bf (delimiter (ix_sectors E ix) s) st = Ok s1
    /\ verify_if bl (delimiter (ix_sectors E ix) s) (b_seek_cur (sector_entries s * 4) s1) = Ok st'.
Proof.
  intros f ix i st st' H. destruct f; simpl in H.
  - unfold sk_bin_0 in H. apply bind_ok in H. destruct H as (s & Hs & H). apply get_ok in Hs.
    apply bind_ok in H. destruct H as ([] & Hu & H). apply bind_ok in H. destruct H as ([] & Hd & H).
    apply bind_ok in H. destruct H as (bf & Hbf & H).
    apply bind_ok in H. destruct H as (s1 & Hs1 & H).
    apply bind_ok in H. destruct H as (bl & Hbl & H).
    exists s, bf, bl, s1. rewrite Hbf, Hbl. auto.
  - unfold sk_bin_15099 in H. apply bind_ok in H. destruct H as (s & Hs & H). apply get_ok in Hs.
    apply bind_ok in H. destruct H as ([] & Hu & H).
    apply bind_ok in H. destruct H as (bf & Hbf & H).
    apply bind_ok in H. destruct H as (s1 & Hs1 & H).
    apply bind_ok in H. destruct H as (bl & Hbl & H).
    exists s, bf, bl, s1. rewrite Hbf, Hbl. auto.
  - unfold sk_bin_15200 in H. apply bind_ok in H. destruct H as (s & Hs & H). apply get_ok in Hs.
    apply bind_ok in H. destruct H as ([] & Hu & H). apply cassert_ok in Hu.
    injection H as <-. exists s, false, false, st. simpl.
    rewrite sector_count_entries by assumption. auto.
Qed.

Lemma sk_bin_pos : forall f ix i d p s', sk_bin E f ix i (BSt d p false false) = Ok s' ->
  s' = BSt d (p + sec_bytes f ix i) false false.
Proof.
  intros f ix i d p s' H. apply sk_bin_inv in H.
  destruct H as (s & bf & bl & s1 & Hs & Hbf & Hbl & H1 & H2).
  apply verify_if_ok in H1. destruct H1 as [-> _]. rewrite seek_cur_good in H2.
  apply verify_if_ok in H2. destruct H2 as [-> _].
  unfold sec_bytes. rewrite Hs, <- Hbf, <- Hbl. f_equal. lia.
Qed.

Lemma sk_bin_fail : forall f ix i s s', b_fail s = true -> sk_bin E f ix i s = Ok s' -> b_fail s' = true.
Proof.
  intros f ix i st s' Hf H. apply sk_bin_inv in H.
  destruct H as (s & bf & bl & s1 & _ & _ & _ & H1 & H2).
  eapply verify_if_fail; [|exact H2]. apply seek_cur_fail. eapply verify_if_fail; eassumption.
Qed.

(** if a sector can be read, it can be skipped (version 0: for sizes that fit an int) *)
Lemma delimiter_0_val : forall ss s v, delimiter_0 ss s = Ok v -> i32 v = i32 (delimiter ss s).
Proof.
  intros ss s v H. unfold delimiter_0 in H.
  set (n := Z.of_nat _) in H. destruct (in_i32 (i32 n * 4)) eqn:Hi; [|discriminate].
  injection H as <-. unfold delimiter. fold n.
  unfold i32 at 1 3. f_equal.
  replace (i32 n * 4 + two31)%Z with (4 * n + two31 + (- 4 * ((n + two31) / two32)) * two32)%Z.
  - apply Z_mod_plus_full.
  - unfold i32. pose proof (Z.div_mod (n + two31) two32 ltac:(unfold two32; lia)).
    unfold two31, two32 in *. lia.
Qed.

Lemma verify_i32 : forall v w s, i32 v = i32 w -> verify v s = verify w s.
Proof. intros v w s H. unfold verify. rewrite H. reflexivity. Qed.

Lemma rd_sk_bin : forall f ix i d p m s', rd_bin E f ix i (BSt d p false false) = Ok (m, s') ->
  b_fail s' = false -> sk_bin E f ix i (BSt d p false false) = Ok s'.
Proof.
  intros f ix i d p m s' H Hf. pose proof (rd_bin_pos _ _ _ _ _ _ _ H Hf) as [Hpos _].
  destruct f; simpl in H |- *.
  - unfold rd_bin_0 in H. unfold sk_bin_0.
    apply bind_ok in H. destruct H as (s & Hs & H). rewrite Hs. cbn [bind].
    apply bind_ok in H. destruct H as ([] & Hu & H). rewrite Hu. cbn [bind].
    apply bind_ok in H. destruct H as ([] & Hd & H). rewrite Hd. cbn [bind].
    apply bind_ok in H. destruct H as (bf & Hbf & H). rewrite Hbf. cbn [bind].
    apply bind_ok in H. destruct H as (s1 & Hs1 & H).
    fold (verify0 (ix_sectors E ix) s bf (BSt d p false false)) in Hs1.
    assert (Hs1' : verify_if bf (delimiter (ix_sectors E ix) s) (BSt d p false false) = Ok s1).
    { destruct bf; simpl in Hs1 |- *; [|assumption].
      apply bind_ok in Hs1. destruct Hs1 as (v & Hv & Hs1). apply delimiter_0_val in Hv.
      rewrite <- (verify_i32 _ _ _ Hv). assumption. }
    rewrite Hs1'. cbn [bind].
    destruct (rd_buffer (sector_entries s) s1) as [buf s2] eqn:Hb.
    apply bind_ok in H. destruct H as (m' & Hm & H).
    apply bind_ok in H. destruct H as (bl & Hbl & H). rewrite Hbl. cbn [bind].
    apply bind_ok in H. destruct H as (s3 & Hs3 & H). injection H as <- <-.
    fold (verify0 (ix_sectors E ix) s bl s2) in Hs3.
    apply verify0_ok in Hs1. destruct Hs1 as [-> _].
    destruct (b_fail s2) eqn:Ef2; [rewrite (verify0_fail _ _ _ _ _ Ef2 Hs3) in Hf; discriminate|].
    apply rd_buffer_good in Hb; [|assumption]. destruct Hb as (-> & _ & _).
    rewrite seek_cur_good. rewrite (Nat.mul_comm (sector_entries s) 4).
    destruct bl; simpl in Hs3 |- *; [|assumption].
    apply bind_ok in Hs3. destruct Hs3 as (v & Hv & Hs3). apply delimiter_0_val in Hv.
    rewrite <- (verify_i32 _ _ _ Hv). assumption.
  - unfold rd_bin_15099 in H. unfold sk_bin_15099.
    apply bind_ok in H. destruct H as (s & Hs & H). rewrite Hs. cbn [bind].
    apply bind_ok in H. destruct H as ([] & Hu & H). rewrite Hu. cbn [bind].
    apply bind_ok in H. destruct H as (bf & Hbf & H). rewrite Hbf. cbn [bind].
    apply bind_ok in H. destruct H as (s1 & Hs1 & H). rewrite Hs1. cbn [bind].
    destruct (rd_buffer (sector_entries s) s1) as [buf s2] eqn:Hb.
    apply bind_ok in H. destruct H as (m' & Hm & H).
    apply bind_ok in H. destruct H as (bl & Hbl & H). rewrite Hbl. cbn [bind].
    apply bind_ok in H. destruct H as (s3 & Hs3 & H). injection H as <- <-.
    apply verify_if_ok in Hs1. destruct Hs1 as [-> _].
    destruct (b_fail s2) eqn:Ef2; [rewrite (verify_if_fail _ _ _ _ Ef2 Hs3) in Hf; discriminate|].
    apply rd_buffer_good in Hb; [|assumption]. destruct Hb as (-> & _ & _).
    rewrite seek_cur_good. rewrite (Nat.mul_comm (sector_entries s) 4). assumption.
  - unfold rd_bin_15200 in H. unfold sk_bin_15200.
    apply bind_ok in H. destruct H as (s & Hs & H). rewrite Hs. cbn [bind].
    apply bind_ok in H. destruct H as ([] & Hu & H). rewrite Hu. cbn [bind].
    apply cassert_ok in Hu.
    destruct (rd_buffer (sector_entries s) (BSt d p false false)) as [buf s2] eqn:Hb.
    apply bind_ok in H. destruct H as (m' & Hm & H). injection H as <- <-.
    apply rd_buffer_good in Hb; [|assumption]. destruct Hb as (-> & _ & _).
    rewrite seek_cur_good, sector_count_entries, (Nat.mul_comm (sector_entries s) 4) by assumption.
    reflexivity.
Qed.

(** * Text *)

Lemma t_getline_file : forall s, t_file E (snd (t_getline E s)) = t_file E s.
Proof.
  intros s. unfold t_getline. destruct (t_fail E s || t_eof E s); [reflexivity|].
  destruct (nth_error _ _); reflexivity.
Qed.
Lemma t_getline_fail : forall s, t_fail E s = true -> t_getline E s = ([], TSt E (t_file E s) (t_pos E s) (t_eof E s) true).
Proof. intros s H. unfold t_getline. rewrite H. reflexivity. Qed.
Lemma t_GetLine_fuel_file : forall n s, t_file E (snd (t_GetLine_fuel E n s)) = t_file E s.
Proof.
  induction n as [|n IH]; intros s; simpl; pose proof (t_getline_file s) as H;
    destruct (t_getline E s) as [[|w l] s1]; simpl in *; try assumption.
  destruct (t_fail E s1); simpl; [assumption|]. rewrite IH. assumption.
Qed.
Lemma t_GetLine_file : forall s, t_file E (snd (t_GetLine E s)) = t_file E s.
Proof. intros. apply t_GetLine_fuel_file. Qed.
Lemma t_GetLine_fail : forall s, t_fail E s = true -> t_fail E (snd (t_GetLine E s)) = true.
Proof.
  intros s H. unfold t_GetLine. simpl. rewrite t_getline_fail by assumption. reflexivity.
Qed.

Lemma skip_lines_file : forall n s, t_file E (skip_lines E n s) = t_file E s.
Proof. induction n; intros; simpl; [reflexivity|]. rewrite IHn. apply t_GetLine_file. Qed.
Lemma skip_lines_fail : forall n s, t_fail E s = true -> t_fail E (skip_lines E n s) = true.
Proof. induction n; intros; simpl; [assumption|]. apply IHn. apply t_GetLine_fail. assumption. Qed.
Lemma skip_lines_add : forall a b s, skip_lines E (a + b) s = skip_lines E b (skip_lines E a s).
Proof. induction a; intros; simpl; [reflexivity|]. apply IHa. Qed.

Definition rd_body_txt (f : format) (np : nat) (s : sector) (b k : nat) (x : mat D * tstate E)
  : outcome (mat D * tstate E) :=
  let '(m, st) := x in
  bind (get (nth_error (ss_states (s_bra s)) b)) (fun bs =>
  bind (get (nth_error (ss_states (s_ket s)) k)) (fun ks =>
  let (l, st') := t_GetLine E st in
  bind (rd_line E f np (s_bra s) (s_ket s) bs ks l) (fun x => Ok (mset m b k (widen E x), st')))).

Lemma rd_loop_txt_filter : forall f np s st,
  rd_loop_txt E f np s st =
  loop2 (elems s) (rd_body_txt f np s) (mzero (d0 E) (ss_size (s_bra s)) (ss_size (s_ket s)), st).
Proof.
  intros. unfold rd_loop_txt.
  rewrite (loop2_ext _ _ _ (fun b k x => if skipped s b k then Ok x else rd_body_txt f np s b k x)).
  - apply loop2_filter.
  - intros b k [m st'] _. reflexivity.
Qed.

Lemma rd_loop_txt_pos : forall f np s l m st m' st',
  loop2 l (rd_body_txt f np s) (m, st) = Ok (m', st') -> st' = skip_lines E (length l) st.
Proof.
  induction l as [|[b k] l IH]; intros m st m' st' H.
  - simpl in H. injection H as <- <-. reflexivity.
  - cbn [loop2] in H. apply bind_ok in H. destruct H as ([m1 st1] & H1 & H2).
    apply IH in H2. rewrite H2. cbn [length skip_lines].
    unfold rd_body_txt in H1. inv_ok. destruct (t_GetLine E st) as [l' st2]. inv_ok. reflexivity.
Qed.

Definition sec_lines (ix : indexing E) (i : nat) : nat :=
  match nth_error (ix_sectors E ix) i with Some s => sector_entries s | None => 0 end.

Lemma rd_txt_inv : forall f ix i st m st', rd_txt E f ix i st = Ok (m, st') ->
  exists s, nth_error (ix_sectors E ix) i = Some s /\ is_upper s = true /\ (f = V0 -> is_diag s = true)
    /\ rd_loop_txt E f (length (ix_p E ix)) s st = Ok (m, st').
Proof.
  intros f ix i st m st' H. unfold rd_txt in H.
  apply bind_ok in H. destruct H as (s & Hs & H). apply get_ok in Hs.
  apply bind_ok in H. destruct H as ([] & Hu & H). apply cassert_ok in Hu.
  apply bind_ok in H. destruct H as ([] & Hd & H).
  exists s. split; [assumption|]. split; [assumption|]. split; [|assumption].
  intros ->. apply cassert_ok in Hd. assumption.
Qed.

Lemma rd_txt_pos : forall f ix i st m st', Forall canonical_sector (ix_sectors E ix) ->
  rd_txt E f ix i st = Ok (m, st') -> st' = skip_lines E (sec_lines ix i) st.
Proof.
  intros f ix i st m st' Hc H. apply rd_txt_inv in H. destruct H as (s & Hs & _ & _ & H).
  rewrite rd_loop_txt_filter in H. apply rd_loop_txt_pos in H.
  rewrite elems_length in H.
  - unfold sec_lines. rewrite Hs. assumption.
  - rewrite Forall_forall in Hc. apply Hc. eapply nth_error_In; eauto.
Qed.

Lemma sk_txt_pos : forall f ix i st st', sk_txt E f ix i st = Ok st' ->
  st' = skip_lines E (sec_lines ix i) st.
Proof.
  intros f ix i st st' H. unfold sk_txt in H.
  apply bind_ok in H. destruct H as (s & Hs & H). apply get_ok in Hs.
  apply bind_ok in H. destruct H as ([] & Hu & H). apply cassert_ok in Hu.
  apply bind_ok in H. destruct H as ([] & Hd & H). injection H as <-.
  unfold sec_lines. rewrite Hs. rewrite sector_count_entries by assumption.
  destruct f; reflexivity.
Qed.

Lemma rd_sk_txt : forall f ix i st m st', rd_txt E f ix i st = Ok (m, st') ->
  sk_txt E f ix i st = Ok (skip_lines E (sec_lines ix i) st).
Proof.
  intros f ix i st m st' H. apply rd_txt_inv in H. destruct H as (s & Hs & Hu & Hd & H).
  unfold sk_txt. rewrite Hs. cbn [get bind]. rewrite Hu. cbn [cassert bind].
  unfold sec_lines. rewrite Hs, sector_count_entries by assumption.
  destruct f; cbn [bind]; try reflexivity. rewrite Hd by reflexivity. reflexivity.
Qed.
End Sectors.
