(** Round trip of text H2 files. *)
From Coq Require Import String List ZArith Lia Bool.
From Verif Require Import Base BaseLemmas H2Model H2Spec H2Elements H2Sectors H2Machine H2Access H2RoundBin.
Import ListNotations.
Open Scope nat_scope.

Section Round.
Variable E : env.
Hypothesis Henv : env_ok E.
Notation D := (dbl E).
Notation line := (list (word (txt E))).

(** a healthy stream on the lines [pre ++ rest], positioned after [pre] *)
Definition tat (pre rest : list line) : tstate E := TSt E (TFile E (pre ++ rest) true) (length pre) false false.

Lemma t_getline_tat : forall l pre rest, t_getline E (tat pre (l :: rest)) = (l, tat (pre ++ [l]) rest).
Proof.
  intros. unfold t_getline, tat. cbn [t_fail t_eof orb t_file f_lines t_pos f_nl].
  rewrite nth_error_app2, Nat.sub_diag by lia. cbn [nth_error]. rewrite andb_false_r.
  rewrite app_length, <- app_assoc. cbn [length app]. rewrite Nat.add_1_r. reflexivity.
Qed.
Lemma t_GetLine_tat : forall l pre rest, l <> [] -> t_GetLine E (tat pre (l :: rest)) = (l, tat (pre ++ [l]) rest).
Proof.
  intros l pre rest Hl. unfold t_GetLine. cbn [t_GetLine_fuel]. rewrite t_getline_tat.
  destruct l; [congruence|reflexivity].
Qed.
Lemma get_lines_tat : forall ls pre rest, Forall (fun l => l <> []) ls ->
  get_lines E (length ls) (tat pre (ls ++ rest)) = (ls, tat (pre ++ ls) rest).
Proof.
  induction ls as [|l ls IH]; intros pre rest H; inversion H; subst.
  - simpl. rewrite app_nil_r. reflexivity.
  - cbn [length get_lines app]. rewrite t_GetLine_tat by assumption. rewrite IH by assumption.
    rewrite <- app_assoc. reflexivity.
Qed.
Lemma skip_lines_tat : forall ls pre rest, Forall (fun l => l <> []) ls ->
  skip_lines E (length ls) (tat pre (ls ++ rest)) = tat (pre ++ ls) rest.
Proof.
  induction ls as [|l ls IH]; intros pre rest H; inversion H; subst.
  - simpl. rewrite app_nil_r. reflexivity.
  - cbn [length skip_lines app]. rewrite t_GetLine_tat by assumption. cbn [snd]. rewrite IH by assumption.
    rewrite <- app_assoc. reflexivity.
Qed.

Lemma scan_int_i32 : forall z (l : line), in_i32 z = true -> scan_int E (WInt z :: l) = Ok (z, l).
Proof. intros z l H. simpl. rewrite H. reflexivity. Qed.
Lemma scan_float_some : forall w y (l : line), scan_f E w = Some y -> scan_float E (w :: l) = Ok (y, l).
Proof. intros w y l H. simpl. rewrite H. reflexivity. Qed.

Lemma in_i32_nat : forall n, (Z.of_nat n <= two31 - 1)%Z -> in_i32 (Z.of_nat n) = true.
Proof. intros. apply in_i32_iff. unfold two31 in *. lia. Qed.

Lemma rd_orbitals_tat : forall f ix pre rest, header_fits_text E f ix ->
  let ls := [WInt (Z.of_nat (length (ix_p E ix))); WInt (Z.of_nat (length (ix_n E ix)))]
            :: orb_lines E f (ix_p E ix ++ ix_n E ix) in
  rd_orbitals_txt E f (tat pre (ls ++ rest)) = Ok (ix_p E ix ++ ix_n E ix, tat (pre ++ ls) rest).
Proof.
  intros f ix pre rest H ls. unfold ls, rd_orbitals_txt. cbn [app].
  rewrite t_GetLine_tat by discriminate. unfold scan_size.
  pose proof (ht_num E f ix H) as Hn.
  assert (Hu : forall n, (n <= Z.of_nat (length (ix_p E ix) + length (ix_n E ix)))%Z -> (0 <= n)%Z -> in_u64 n = true).
  { intros n H1 H2. apply in_u64_iff. unfold two31, two64 in *. lia. }
  rewrite !Hu by lia. cbn [bind]. rewrite !Hu by lia. cbn [bind].
  assert (Z.to_nat (u64 (Z.of_nat (length (ix_p E ix)) + Z.of_nat (length (ix_n E ix))))
          = length (orb_lines E f (ix_p E ix ++ ix_n E ix))) as ->.
  { rewrite (ht_lines E f ix H), app_length, u64_id by (unfold two31, two64 in *; lia). lia. }
  rewrite get_lines_tat by apply (ht_nonblank E f ix H). rewrite (ht_orbs E f ix H). cbn [bind].
  rewrite <- app_assoc. reflexivity.
Qed.

Lemma weights_scan : forall x, text_weight E x -> exists y, scan_f E (WTxt (fmt_d E x)) = Some y /\ widen E y = x.
Proof. auto. Qed.

Ltac line_ints := rewrite t_GetLine_tat by discriminate;
  repeat (rewrite scan_int_i32 by assumption; cbn [bind]).

Lemma header_txt_15200 : forall ix h pre rest, indexing_ok E ix -> header_fits_text E V15200 ix ->
  single E (w_p (ix_w E ix)) -> single E (w_n (ix_w E ix)) ->
  sizes_below (two63 - 1) (ix_sectors E ix) ->
  wr_header_txt_15200 E ix = Ok h ->
  rd_header_txt_15200 E (tat pre (h ++ rest)) = Ok (ix, tat (pre ++ h) rest).
Proof.
  intros ix h pre rest Hok Hfit Hswp Hswn Hsz Hw. unfold wr_header_txt_15200 in Hw.
  apply bind_ok in Hw. destruct Hw as ([] & Hord & Hw). apply cassert_ok in Hord.
  apply bind_ok in Hw. destruct Hw as ([] & Hwp & Hw). apply cassert_ok in Hwp.
  apply bind_ok in Hw. destruct Hw as ([] & Hwn & Hw). apply cassert_ok in Hwn.
  apply (eo_eqb E Henv) in Hwp. apply (eo_eqb E Henv) in Hwn.
  apply Ok_inj in Hw. subst h.
  unfold rd_header_txt_15200.
  pose proof (rd_orbitals_tat V15200 ix) as Hro. cbv zeta in Hro.
  rewrite app_assoc. change ([[WInt (Z.of_nat (length (ix_p E ix))); WInt (Z.of_nat (length (ix_n E ix)))]] ++ orb_lines E V15200 (ix_p E ix ++ ix_n E ix))
    with ([WInt (Z.of_nat (length (ix_p E ix))); WInt (Z.of_nat (length (ix_n E ix)))] :: orb_lines E V15200 (ix_p E ix ++ ix_n E ix)).
  set (ol := [WInt (Z.of_nat (length (ix_p E ix))); WInt (Z.of_nat (length (ix_n E ix)))] :: orb_lines E V15200 (ix_p E ix ++ ix_n E ix)) in *.
  rewrite <- (app_assoc ol), Hro by assumption. cbn [bind app].
  destruct (ht_wpp E _ ix Hfit) as (y1 & Hy1 & Hx1). destruct (ht_wnn E _ ix Hfit) as (y2 & Hy2 & Hx2).
  destruct (ht_wpn E _ ix Hfit) as (y3 & Hy3 & Hx3).
  rewrite t_GetLine_tat by discriminate.
  rewrite scan_int_i32 by apply Hfit. cbn [bind]. rewrite scan_int_i32 by apply Hfit. cbn [bind].
  rewrite scan_int_i32 by apply Hfit. cbn [bind].
  rewrite t_GetLine_tat by discriminate.
  rewrite (scan_float_some _ _ _ Hy1). cbn [bind]. rewrite (scan_float_some _ _ _ Hy3). cbn [bind].
  rewrite (scan_float_some _ _ _ Hy2). cbn [bind].
  rewrite t_GetLine_tat by discriminate. unfold scan_long.
  destruct Hok as [Hsp Hse Hcan Hp Hn].
  assert (Hl : forall sp, in_i64 (Z.of_nat (tget (evaluate_sizes (ix_sectors E ix)) sp)) = true).
  { intros sp. rewrite evaluate_sizes_total by assumption. apply in_i64_iff. specialize (Hsz sp). unfold two63 in *. lia. }
  pose proof (Hl PP) as L1. pose proof (Hl NN) as L2. pose proof (Hl PN) as L3. cbn [tget] in L1, L2, L3.
  rewrite L1. cbn [bind]. rewrite L3. cbn [bind]. rewrite L2. cbn [bind].
  unfold finish_header_15200. rewrite select_p_app, select_n_app by assumption.
  rewrite Hwp, Hwn, Hx1, Hx2, Hx3.
  unfold single in Hswp, Hswn. rewrite Hswp, Hswn.
  assert (HordE : ix_ord E ix = KTz) by (destruct (ix_ord E ix); [discriminate|reflexivity]).
  subst ol. 
  destruct ix as [p n ord w sp J0 g0 Tz0 se]. cbn [ix_p ix_n ix_ord ix_w ix_space ix_J0 ix_g0 ix_Tz0 ix_sectors] in *. subst ord.
  assert (HW : WMax (w_p w) (w_n w) (w_pp w) (w_nn w) (w_pn w) = w) by (destruct w; reflexivity).
  rewrite HW, <- Hsp, <- Hse.
  rewrite (sizes_match_id se (fun z => z) (two63 - 1)) by (auto; intros; apply u64_id; unfold two63, two64 in *; lia).
  cbn [cassert bind]. rewrite <- !app_assoc. reflexivity.
Qed.

Lemma header_txt_15099 : forall ix h pre rest, indexing_ok E ix -> header_fits_text E V15099 ix ->
  sizes_below (two31 - 1) (ix_sectors E ix) -> ix_Tz0 E ix = 0%Z -> Jmax_fits E ix ->
  wr_header_txt_15099 E ix = Ok h ->
  rd_header_txt_15099 E (tat pre (h ++ rest)) = Ok (ix, tat (pre ++ h) rest).
Proof.
  intros ix h pre rest Hok Hfit Hsz HTz HJ Hw. unfold wr_header_txt_15099 in Hw.
  apply bind_ok in Hw. destruct Hw as ([] & Hord & Hw). apply cassert_ok in Hord.
  apply Ok_inj in Hw. subst h.
  unfold rd_header_txt_15099.
  pose proof (rd_orbitals_tat V15099 ix) as Hro. cbv zeta in Hro.
  rewrite app_assoc. change ([[WInt (Z.of_nat (length (ix_p E ix))); WInt (Z.of_nat (length (ix_n E ix)))]] ++ orb_lines E V15099 (ix_p E ix ++ ix_n E ix))
    with ([WInt (Z.of_nat (length (ix_p E ix))); WInt (Z.of_nat (length (ix_n E ix)))] :: orb_lines E V15099 (ix_p E ix ++ ix_n E ix)).
  set (ol := [WInt (Z.of_nat (length (ix_p E ix))); WInt (Z.of_nat (length (ix_n E ix)))] :: orb_lines E V15099 (ix_p E ix ++ ix_n E ix)) in *.
  rewrite <- (app_assoc ol), Hro by assumption. cbn [bind app].
  destruct (ht_wpp E _ ix Hfit) as (y1 & Hy1 & Hx1). destruct (ht_wnn E _ ix Hfit) as (y2 & Hy2 & Hx2).
  destruct (ht_wpn E _ ix Hfit) as (y3 & Hy3 & Hx3).
  destruct (ht_wp E _ ix Hfit) as (y4 & Hy4 & Hx4). destruct (ht_wn E _ ix Hfit) as (y5 & Hy5 & Hx5).
  rewrite t_GetLine_tat by discriminate.
  rewrite scan_int_i32 by apply Hfit. cbn [bind]. rewrite scan_int_i32 by apply Hfit. cbn [bind].
  rewrite scan_int_i32 by apply Hfit. cbn [bind].
  rewrite t_GetLine_tat by discriminate.
  rewrite (scan_float_some _ _ _ Hy4). cbn [bind]. rewrite (scan_float_some _ _ _ Hy5). cbn [bind].
  rewrite t_GetLine_tat by discriminate.
  rewrite (scan_float_some _ _ _ Hy1). cbn [bind]. rewrite (scan_float_some _ _ _ Hy2). cbn [bind].
  rewrite (scan_float_some _ _ _ Hy3). cbn [bind].
  assert (HJ2 : forall sp, in_i32 (2 * tget (evaluate_Jmax (ix_space E ix)) sp) = true).
  { intros sp. apply in_i32_iff. specialize (HJ sp). rewrite Jmax_spec.
    pose proof (max_J_nonneg sp (ix_space E ix)). unfold two31 in *. lia. }
  pose proof (HJ2 PP) as J1. pose proof (HJ2 NN) as J2. pose proof (HJ2 PN) as J3. cbn [tget] in J1, J2, J3.
  rewrite t_GetLine_tat by discriminate.
  rewrite scan_int_i32 by assumption. cbn [bind]. rewrite scan_int_i32 by assumption. cbn [bind].
  rewrite scan_int_i32 by assumption. cbn [bind].
  destruct Hok as [Hsp Hse Hcan Hp Hn].
  assert (Hl : forall sp, in_i32 (Z.of_nat (tget (evaluate_sizes (ix_sectors E ix)) sp)) = true).
  { intros sp. rewrite evaluate_sizes_total by assumption. apply in_i32_nat, Hsz. }
  pose proof (Hl PP) as L1. pose proof (Hl NN) as L2. pose proof (Hl PN) as L3. cbn [tget] in L1, L2, L3.
  rewrite t_GetLine_tat by discriminate.
  rewrite scan_int_i32 by assumption. cbn [bind]. rewrite scan_int_i32 by assumption. cbn [bind].
  rewrite scan_int_i32 by assumption. cbn [bind].
  unfold finish_header_15099. rewrite select_p_app, select_n_app by assumption.
  rewrite Hx1, Hx2, Hx3, Hx4, Hx5.
  assert (HordE : ix_ord E ix = KPN) by (destruct (ix_ord E ix); [reflexivity|discriminate]).
  subst ol.
  destruct ix as [p n ord w sp J0 g0 Tz0 se]. cbn [ix_p ix_n ix_ord ix_w ix_space ix_J0 ix_g0 ix_Tz0 ix_sectors] in *. subst ord.
  assert (HW : WMax (w_p w) (w_n w) (w_pp w) (w_nn w) (w_pn w) = w) by (destruct w; reflexivity).
  rewrite HW, <- Hsp. rewrite HTz. cbn [Z.eqb check bind]. rewrite <- HTz, <- Hse.
  rewrite (sizes_match_id se (fun z => z) (two31 - 1)) by (auto; intros; apply u64_id; unfold two31, two64 in *; lia).
  cbn [cassert bind t_pp t_nn t_pn].
  rewrite !(Z.mul_comm 2), !Z.quot_mul, !Z.eqb_refl by discriminate. cbn [andb cassert bind].
  rewrite <- !app_assoc. reflexivity.
Qed.

Lemma header_txt_0 : forall ix h pre rest, indexing_ok E ix -> v0_scheme E ix ->
  sizes_below (two31 - 1) (ix_sectors E ix) ->
  wr_header_txt_0 E ix = Ok h ->
  rd_header_txt_0 E (tat pre (h ++ rest)) = Ok (ix, tat (pre ++ h) rest).
Proof.
  intros ix h pre rest Hok Hv Hsz Hw. unfold wr_header_txt_0, v0_header_fields in Hw.
  apply bind_ok in Hw. destruct Hw as ([] & Hord & Hw). apply cassert_ok in Hord. apply Ok_inj in Hw. subst h.
  assert (HordE : ix_ord E ix = KPN) by (destruct (ix_ord E ix); [reflexivity|discriminate]).
  unfold rd_header_txt_0. cbn [app].
  rewrite t_GetLine_tat by discriminate. rewrite scan_int_i32 by reflexivity. cbn [bind].
  rewrite t_GetLine_tat by discriminate. rewrite scan_int_i32 by apply Hv. cbn [bind].
  rewrite t_GetLine_tat by discriminate. rewrite scan_int_i32 by apply Hv. cbn [bind].
  rewrite t_GetLine_tat by discriminate. rewrite scan_int_i32 by apply i32_range. cbn [bind].
  rewrite scan_int_i32 by apply i32_range. cbn [bind].
  rewrite finish_0 by assumption. cbn [bind]. rewrite <- !app_assoc. reflexivity.
Qed.

(** ** sectors *)
Definition out_line_at (f : format) (np : nat) (c : conversion) (s : sector) (m : mat D) (p : nat * nat) : line :=
  out_line E f np (s_bra s) (s_ket s)
    (nth (fst p) (ss_states (s_bra s)) (0, 0)) (nth (snd p) (ss_states (s_ket s)) (0, 0)) (val E c s m p).

Lemma wr_loop_txt_spec : forall f np c s m, (f = V0 -> is_diag s = true) ->
  wr_loop_txt E f np c s m = Ok (map (out_line_at f np c s m) (elems s)).
Proof.
  intros f np c s m Hf. unfold wr_loop_txt.
  set (body := fun bi ki out => bind (out_element E c s m bi ki) (fun x =>
     bind (get (nth_error (ss_states (s_bra s)) bi)) (fun b =>
     bind (get (nth_error (ss_states (s_ket s)) ki)) (fun k =>
     Ok (out ++ [out_line E f np (s_bra s) (s_ket s) b k x]))))).
  rewrite (loop2_ext _ _ _ (fun b k st => if skipped s b k then Ok st else body b k st)).
  2:{ intros b k st _. rewrite wskipped_eq by assumption. reflexivity. }
  rewrite loop2_filter. fold (elems s).
  assert (G : forall l out, (forall b k, In (b, k) l -> held s b k) ->
    loop2 l body out = Ok (out ++ map (out_line_at f np c s m) l)).
  { induction l as [|[b k] l IH]; intros out Hl; [simpl; rewrite app_nil_r; reflexivity|].
    pose proof (Hl b k (or_introl eq_refl)) as Hh.
    cbn [loop2]. unfold body at 1. rewrite out_element_spec by assumption. cbn [bind].
    destruct Hh as (Hb & Hk & _).
    rewrite (nth_error_nth' _ _ _ (0, 0) Hb), (nth_error_nth' _ _ _ (0, 0) Hk). cbn [get bind].
    rewrite IH by (intros; apply Hl; right; assumption). rewrite <- app_assoc. reflexivity. }
  apply (G (elems s) []). intros b k Hin. apply in_elems. assumption.
Qed.

Lemma label_i32 : forall a off, (0 <= Z.of_nat a + off < two31)%Z -> label_ok (i32 (Z.of_nat a + off)) a off = true.
Proof.
  intros a off H. unfold label_ok. rewrite i32_id by (apply in_i32_iff; unfold two31 in *; lia). apply Z.eqb_refl.
Qed.
Lemma species_code_i32 : forall s, in_i32 (species_code s) = true.
Proof. intros []; reflexivity. Qed.
Lemma offset_range : forall np sp a, (Z.of_nat (np + a + 1) < two31)%Z ->
  (0 <= Z.of_nat a + index_offset np sp < two31)%Z.
Proof.
  intros np [] a H; unfold index_offset.
  - unfold two31 in *. lia.
  - rewrite i32_id by (apply in_i32_iff; unfold two31 in *; lia). unfold two31 in *. lia.
Qed.

Lemma rd_line_out : forall f np s b k c m y, labels_fit np s -> held s b k ->
  scan_f E (WTxt (fmt_f E (val E c s m (b, k)))) = Some y ->
  rd_line E f np (s_bra s) (s_ket s) (nth b (ss_states (s_bra s)) (0, 0)) (nth k (ss_states (s_ket s)) (0, 0))
    (out_line_at f np c s m (b, k)) = Ok y.
Proof.
  intros f np s b k c m y Hlab (Hb & Hk & _) Hy.
  unfold out_line_at. cbn [fst snd].
  set (x := val E c s m (b, k)) in *.
  pose proof (nth_In _ (0, 0) Hb) as Ib. pose proof (nth_In _ (0, 0) Hk) as Ik.
  destruct (nth b (ss_states (s_bra s)) (0, 0)) as [b1 b2]. destruct (nth k (ss_states (s_ket s)) (0, 0)) as [k1 k2].
  destruct (Hlab b1 b2 (or_introl Ib)) as [B1 B2]. destruct (Hlab k1 k2 (or_intror Ik)) as [K1 K2].
  assert (Hone : forall a, (Z.of_nat (np + a + 1) < two31)%Z -> (0 <= Z.of_nat a + 1 < two31)%Z) by (intros; unfold two31 in *; lia).
  destruct f; cbn [rd_line out_line fst snd].
  - unfold rd_line_0. repeat (rewrite scan_int_i32 by (apply i32_range || apply species_code_i32); cbn [bind]).
    rewrite (scan_float_some _ _ _ Hy). cbn [bind fst snd].
    rewrite !label_i32 by auto. rewrite !Z.eqb_refl. reflexivity.
  - unfold rd_line_15099. repeat (rewrite scan_int_i32 by (apply i32_range || apply species_code_i32); cbn [bind]).
    rewrite (scan_float_some _ _ _ Hy). cbn [bind fst snd].
    rewrite !label_i32 by auto. rewrite !Z.eqb_refl. reflexivity.
  - unfold rd_line_15200. repeat (rewrite scan_int_i32 by (apply i32_range || apply species_code_i32); cbn [bind]).
    rewrite (scan_float_some _ _ _ Hy). cbn [bind fst snd].
    rewrite !label_i32 by (apply offset_range; assumption). rewrite !Z.eqb_refl. reflexivity.
Qed.

Lemma out_line_nonblank : forall f np c s m p, out_line_at f np c s m p <> [].
Proof. intros [] np c s m p; discriminate. Qed.

Lemma rd_loop_txt_back : forall f np s c m, labels_fit np s -> prints E c s m ->
  forall l m0 pre rest, (forall b k, In (b, k) l -> held s b k) ->
  exists r, loop2 l (rd_body_txt E f np s) (m0, tat pre (map (out_line_at f np c s m) l ++ rest))
            = Ok (r, tat (pre ++ map (out_line_at f np c s m) l) rest)
    /\ rows r = rows m0 /\ cols r = cols m0
    /\ (forall b k, In (b, k) l -> at_ r b k = widen E (via_text E (file_bits E c s m b k)))
    /\ (forall b k, ~ In (b, k) l -> at_ r b k = at_ m0 b k).
Proof.
  intros f np s c m Hlab Hpr. induction l as [|[b k] l IH]; intros m0 pre rest Hl.
  - exists m0. simpl. rewrite app_nil_r. repeat split; auto. intros b k [].
  - pose proof (Hl b k (or_introl eq_refl)) as Hh. destruct (Hpr b k Hh) as (y & Hy).
    cbn [loop2 map app]. unfold rd_body_txt at 1.
    pose proof Hh as (Hb & Hk & _).
    rewrite (nth_error_nth' _ _ _ (0, 0) Hb), (nth_error_nth' _ _ _ (0, 0) Hk). cbn [get bind].
    rewrite t_GetLine_tat by apply out_line_nonblank.
    change (file_bits E c s m b k) with (val E c s m (b, k)) in Hy.
    rewrite (rd_line_out f np s b k c m y Hlab Hh Hy). cbn [bind].
    destruct (IH (mset m0 b k (widen E y)) (pre ++ [out_line_at f np c s m (b, k)]) rest) as (r & Hr & H1 & H2 & H3 & H4).
    { intros; apply Hl; right; assumption. }
    exists r. rewrite Hr. split; [rewrite <- app_assoc; reflexivity|].
    split; [exact H1|]. split; [exact H2|]. split.
    + intros b' k' Hin.
      destruct (in_dec (fun p q : nat * nat => ltac:(decide equality; apply Nat.eq_dec)) (b', k') l) as [Hi|Hn].
      * apply H3. assumption.
      * destruct Hin as [He|Hi]; [|contradiction]. injection He as <- <-.
        rewrite H4 by assumption. unfold mset. simpl. rewrite !Nat.eqb_refl. simpl.
        unfold via_text. change (file_bits E c s m b k) with (val E c s m (b, k)). rewrite Hy. reflexivity.
    + intros b' k' Hn. rewrite H4 by (intros Hi; apply Hn; right; assumption).
      unfold mset. simpl.
      destruct (Nat.eqb_spec b' b) as [->|]; [|reflexivity].
      destruct (Nat.eqb_spec k' k) as [->|]; [|reflexivity].
      exfalso. apply Hn. left. reflexivity.
Qed.

Definition sec_text (f : format) (ix : indexing E) (s : sector) (m : mat D) (c : conversion) : list line :=
  map (out_line_at f (length (ix_p E ix)) c s m) (elems s).

Lemma sec_text_length : forall f ix i s m c, nth_error (ix_sectors E ix) i = Some s -> canonical_sector s ->
  length (sec_text f ix s m c) = sec_lines E ix i.
Proof.
  intros f ix i s m c Hs Hc. unfold sec_text, sec_lines. rewrite Hs, map_length. apply elems_length. assumption.
Qed.
Lemma sec_text_nonblank : forall f ix s m c, Forall (fun l => l <> []) (sec_text f ix s m c).
Proof.
  intros. unfold sec_text. apply Forall_forall. intros l Hl. apply in_map_iff in Hl. destruct Hl as (p & <- & _).
  apply out_line_nonblank.
Qed.

Lemma wr_txt_text : forall f ix i s m c, nth_error (ix_sectors E ix) i = Some s -> canonical_sector s ->
  (f = V0 -> is_diag s = true) -> wr_txt E f ix i m c = Ok (sec_text f ix s m c).
Proof.
  intros f ix i s m c Hs Hc Hd. unfold wr_txt. rewrite Hs. cbn [get bind].
  rewrite (canonical_upper s Hc). cbn [cassert bind].
  assert ((match f with V0 => cassert (is_diag s) | _ => Ok tt end) = Ok tt) as ->.
  { destruct f; auto. rewrite Hd by reflexivity. reflexivity. }
  cbn [bind]. apply wr_loop_txt_spec. assumption.
Qed.

Lemma rd_txt_text : forall f ix i s m c pre rest, nth_error (ix_sectors E ix) i = Some s -> canonical_sector s ->
  (f = V0 -> is_diag s = true) -> labels_fit (length (ix_p E ix)) s -> prints E c s m ->
  exists r, rd_txt E f ix i (tat pre (sec_text f ix s m c ++ rest)) = Ok (r, tat (pre ++ sec_text f ix s m c) rest)
    /\ reads_back E (via_text E) c s m r.
Proof.
  intros f ix i s m c pre rest Hs Hc Hd Hlab Hpr. unfold rd_txt. rewrite Hs. cbn [get bind].
  rewrite (canonical_upper s Hc). cbn [cassert bind].
  assert ((match f with V0 => cassert (is_diag s) | _ => Ok tt end) = Ok tt) as ->.
  { destruct f; auto. rewrite Hd by reflexivity. reflexivity. }
  cbn [bind]. rewrite rd_loop_txt_filter.
  destruct (rd_loop_txt_back f (length (ix_p E ix)) s c m Hlab Hpr (elems s)
     (mzero (d0 E) (ss_size (s_bra s)) (ss_size (s_ket s))) pre rest) as (r & Hr & H1 & H2 & H3 & H4).
  { intros b k Hin. apply in_elems. assumption. }
  exists r. split; [exact Hr|]. split; [exact H1|]. split; [exact H2|]. split.
  - intros b k Hh. apply H3. apply in_elems. assumption.
  - intros b k Hh. rewrite H4 by (intros Hi; apply Hh, in_elems; assumption). reflexivity.
Qed.

(** ** the whole file *)
Fixpoint texts (f : format) (ix : indexing E) (ss : list sector) (ws : list (mat D * conversion)) : list line :=
  match ss, ws with
  | s :: ss', w :: ws' => sec_text f ix s (fst w) (snd w) ++ texts f ix ss' ws'
  | _, _ => []
  end.

(** conditions under which the header of format [f] can carry the indexing *)

Lemma text_scheme_diag : forall f ix i s, text_scheme E f ix -> nth_error (ix_sectors E ix) i = Some s -> f = V0 -> is_diag s = true.
Proof.
  intros f ix i s Hsch Hs ->. destruct Hsch as (_ & _ & _ & Hd). rewrite Forall_forall in Hd. apply Nat.eqb_eq. eapply Hd, nth_error_In; eauto.
Qed.

Lemma write_all_txt : forall f ix, text_scheme E f ix -> Forall canonical_sector (ix_sectors E ix) ->
  forall ws ss i out, skipn i (ix_sectors E ix) = ss -> Forall2 (fits_sector E) ss ws ->
  write_history E (write_sector_txt E) (whole_from E i ws) (OutStr E line f ix i out)
  = Ok (OutStr E line f ix (i + length ws) (out ++ texts f ix ss ws)).
Proof.
  intros f ix Hsch Hc. induction ws as [|w ws IH]; intros ss i out Hss HF; inversion HF as [|s w' ss' ws' Hsw HF' E1 E2]; subst.
  - cbn [write_history whole_from]. simpl. rewrite app_nil_r, Nat.add_0_r. reflexivity.
  - assert (Hs : nth_error (ix_sectors E ix) i = Some s).
    { rewrite <- (firstn_skipn i (ix_sectors E ix)) at 1. symmetry in E1. rewrite E1.
      assert (length (firstn i (ix_sectors E ix)) = i).
      { apply firstn_length_le. destruct (Nat.le_gt_cases i (length (ix_sectors E ix))); [assumption|].
        rewrite skipn_all2 in E1 by lia. discriminate. }
      rewrite nth_error_app2 by lia. rewrite H, Nat.sub_diag. reflexivity. }
    cbn [whole_from length seq map combine write_history]. unfold write_sector_txt at 1.
    cbn [os_ix os_si os_fmt os_out]. rewrite (write_checks_ok E _ _ _ _ Hs Hsw). cbn [bind].
    rewrite (wr_txt_text f ix i s); [|assumption|rewrite Forall_forall in Hc; eapply Hc, nth_error_In; eauto|eapply text_scheme_diag; eauto]. cbn [bind].
    fold (whole_from E (S i) ws). rewrite Nat.add_1_r.
    rewrite (IH ss' (S i)).
    + cbn [texts]. rewrite <- app_assoc. f_equal. f_equal. lia.
    + eapply skipn_S; eauto.
    + assumption.
Qed.

Lemma texts_split : forall f ix ss ws i k s w, Forall2 (fits_sector E) ss ws ->
  (forall j, nth_error ss j = nth_error (ix_sectors E ix) (i + j)) ->
  Forall canonical_sector ss ->
  nth_error ss k = Some s -> nth_error ws k = Some w ->
  exists a b, texts f ix ss ws = a ++ sec_text f ix s (fst w) (snd w) ++ b
    /\ length a = list_sum (map (sec_lines E ix) (seq i k)) /\ Forall (fun l => l <> []) a.
Proof.
  induction ss as [|s0 ss IH]; intros ws i k s w HF Hn Hc Hs Hw; [destruct k; discriminate|].
  inversion HF as [|x w0 y ws' Hsw HF' E1 E2]; subst. inversion Hc; subst.
  destruct k as [|k].
  - injection Hs as <-. injection Hw as <-. exists [], (texts f ix ss ws').
    repeat split. constructor.
  - simpl in Hs, Hw.
    destruct (IH ws' (S i) k s w HF') as (a & b & Hab & Hla & Hne); auto.
    { intros j. specialize (Hn (S j)). simpl in Hn. rewrite Hn. f_equal. lia. }
    exists (sec_text f ix s0 (fst w0) (snd w0) ++ a), b. cbn [texts].
    rewrite Hab. split; [rewrite <- app_assoc; reflexivity|]. split.
    + rewrite app_length, Hla. cbn [seq map list_sum fold_right].
      rewrite (sec_text_length f ix i); [reflexivity| |assumption]. specialize (Hn 0). simpl in Hn. rewrite Nat.add_0_r in Hn. auto.
    + apply Forall_app. split; [apply sec_text_nonblank|assumption].
Qed.

Lemma create_txt_ok : forall f ix, text_scheme E f ix -> exists h, create_txt E f ix = Ok (OutStr E line f ix 0 ([WInt (format_code f)] :: h))
  /\ (match f with V0 => wr_header_txt_0 E ix | V15099 => wr_header_txt_15099 E ix | V15200 => wr_header_txt_15200 E ix end) = Ok h.
Proof.
  intros f ix H. unfold create_txt.
  destruct f; simpl in H; destruct H as (Ho & H).
  - unfold wr_header_txt_0. rewrite Ho. simpl. eauto.
  - unfold wr_header_txt_15099. rewrite Ho. simpl. eauto.
  - unfold wr_header_txt_15200. rewrite Ho. cbn [ordering_eqb cassert bind].
    destruct H as (_ & _ & _ & _ & H1 & H2).
    apply (eo_eqb E Henv) in H1. apply (eo_eqb E Henv) in H2. rewrite H1, H2. cbn [cassert bind]. eauto.
Qed.

Theorem text_round_trip : forall f ix ws,
  indexing_ok E ix -> text_scheme E f ix ->
  Forall (labels_fit (length (ix_p E ix))) (ix_sectors E ix) ->
  Forall2 (fits_sector E) (ix_sectors E ix) ws ->
  Forall2 (fun s w => prints E (snd w) s (fst w)) (ix_sectors E ix) ws ->
  exists file, write_file_txt E f ix (whole_operator E ws) = Ok file
  /\ exists st, open_txt E file = Ok st /\ is_fmt E (tstate E) st = f /\ is_ix E (tstate E) st = ix
  /\ forall h, Forall (fun i => i < length (ix_sectors E ix)) h ->
     exists ms st', reads_txt E st h = Ok (ms, st')
     /\ Forall2 (fun i r => exists s m c, nth_error (ix_sectors E ix) i = Some s /\ nth_error ws i = Some (m, c)
                  /\ reads_back E (via_text E) c s m r) h ms.
Proof.
  intros f ix ws Hok Hsch Hlab HF HP. pose proof (iok_canonical E ix Hok) as Hc.
  destruct (create_txt_ok f ix Hsch) as (h & Hcr & Hh).
  set (body := texts f ix (ix_sectors E ix) ws).
  exists (TFile E ([WInt (format_code f)] :: h ++ body) true).
  split.
  { unfold write_file_txt. rewrite Hcr. cbn [bind].
    change (whole_operator E ws) with (whole_from E 0 ws).
    rewrite (write_all_txt f ix Hsch Hc ws (ix_sectors E ix)) by (auto; reflexivity).
    cbn [bind os_out]. reflexivity. }
  set (pre := [WInt (format_code f)] :: h).
  assert (Hop : open_txt E (TFile E ([WInt (format_code f)] :: h ++ body) true)
    = Ok (InStr E (tstate E) f ix (InSt (tstate E) 0 [Some (length pre)] (tat pre body)))).
  { unfold open_txt.
    change (TSt E (TFile E ([WInt (format_code f)] :: h ++ body) true) 0 false false) with (tat [] ([WInt (format_code f)] :: h ++ body)).
    rewrite t_getline_tat. rewrite scan_int_i32 by (destruct f; reflexivity). cbn [bind app].
    replace (check (negb (t_fail E (tat [[WInt (format_code f)]] (h ++ body))))) with (Ok tt) by reflexivity. cbn [bind].
    replace (format_of_code (format_code f)) with (Ok f) by (destruct f; reflexivity). cbn [bind].
    assert (Hhd : forall pr, (match f with V0 => rd_header_txt_0 E (tat pr (h ++ body)) | V15099 => rd_header_txt_15099 E (tat pr (h ++ body))
        | V15200 => rd_header_txt_15200 E (tat pr (h ++ body)) end) = Ok (ix, tat (pr ++ h) body)).
    { intros pr. destruct f; simpl in Hsch.
      - destruct Hsch as (_ & Hv & Hs & _). apply header_txt_0; assumption.
      - destruct Hsch as (_ & Hf & HT & HJ & Hs). apply header_txt_15099; assumption.
      - destruct Hsch as (_ & Hf & H1 & H2 & Hs & _). apply header_txt_15200; assumption. }
    rewrite Hhd. cbn [bind]. reflexivity. }
  eexists. split; [exact Hop|]. split; [reflexivity|]. split; [reflexivity|].
  intros hist Hh2.
  set (file := TFile E (pre ++ body) true).
  assert (Hsec : forall i, i < length (ix_sectors E ix) ->
    exists s w r, nth_error (ix_sectors E ix) i = Some s /\ nth_error ws i = Some w
      /\ rd_txt E f ix i (sa_txt E ix file (length pre) i) = Ok (r, sa_txt E ix file (length pre) (i + 1))
      /\ t_fail E (sa_txt E ix file (length pre) (i + 1)) = false
      /\ reads_back E (via_text E) (snd w) s (fst w) r).
  { intros i Hi.
    destruct (nth_error (ix_sectors E ix) i) as [s|] eqn:Hs; [|apply nth_error_None in Hs; lia].
    destruct (Forall2_nth_l _ _ _ _ _ _ _ HF Hs) as (w & Hw & _).
    destruct (Forall2_nth_l _ _ _ _ _ _ _ HP Hs) as (w' & Hw' & Hpr). rewrite Hw in Hw'. injection Hw' as <-.
    assert (Hcs : canonical_sector s) by (rewrite Forall_forall in Hc; eapply Hc, nth_error_In; eauto).
    assert (Hls : labels_fit (length (ix_p E ix)) s) by (rewrite Forall_forall in Hlab; eapply Hlab, nth_error_In; eauto).
    destruct (texts_split f ix (ix_sectors E ix) ws 0 i s w HF ltac:(reflexivity) Hc Hs Hw) as (a & b & Hab & Hla & Hne).
    destruct (rd_txt_text f ix i s (fst w) (snd w) (pre ++ a) b Hs Hcs ltac:(eapply text_scheme_diag; eauto) Hls Hpr) as (r & Hrd & Hback).
    exists s, w, r. split; [reflexivity|]. split; [assumption|].
    assert (HA : sa_txt E ix file (length pre) i = tat (pre ++ a) (sec_text f ix s (fst w) (snd w) ++ b)).
    { unfold sa_txt, n_lines. rewrite <- Hla.
      change (TSt E file (length pre) false false) with (tat pre body).
      unfold body. rewrite Hab. apply skip_lines_tat. assumption. }
    assert (HB : sa_txt E ix file (length pre) (i + 1) = tat ((pre ++ a) ++ sec_text f ix s (fst w) (snd w)) b).
    { rewrite sa_txt_S, HA. rewrite <- (sec_text_length f ix i s (fst w) (snd w) Hs Hcs).
      apply skip_lines_tat. apply sec_text_nonblank. }
    rewrite HA, HB. split; [exact Hrd|]. split; [reflexivity|assumption]. }
  set (mm := fun i => match rd_txt E f ix i (sa_txt E ix file (length pre) i) with Ok (r, _) => r | _ => mzero (d0 E) 0 0 end).
  destruct (txt_prog E f ix file (length pre) eq_refl mm) with (h := hist) as (st' & Hst').
  { intros i Hi. destruct (Hsec i Hi) as (s & w & r & _ & _ & Hrd & Hnf & _). unfold mm. rewrite Hrd. auto. }
  { assumption. }
  exists (map mm hist). unfold reads_txt. cbn [is_ix is_fmt is_state].
  change (tat pre body) with (TSt E file (length pre) false false). rewrite Hst'. cbn [bind]. eexists. split; [reflexivity|].
  clear Hst' st'. induction Hh2 as [|i hist Hi Hh2 IH]; [constructor|]. cbn [map]. constructor; [|exact IH].
  destruct (Hsec i Hi) as (s & [m c] & r & Hs & Hw & Hrd & _ & Hback).
  exists s, m, c. split; [assumption|]. split; [assumption|]. unfold mm. rewrite Hrd. exact Hback.
Qed.
End Round.
