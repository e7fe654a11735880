(** Round trip of binary H2 files. *)
From Coq Require Import String List ZArith Lia Bool.
From Verif Require Import Base BaseLemmas H2Model H2Spec H2Elements H2Sectors H2Machine H2Access.
Import ListNotations.
Open Scope nat_scope.

Lemma Ok_inj : forall A (a b : A), Ok a = Ok b -> a = b.
Proof. intros A a b H. injection H. auto. Qed.

Lemma skipn_S : forall A (l : list A) i x l', skipn i l = x :: l' -> skipn (S i) l = l'.
Proof.
  induction l as [|y l IH]; intros [|i] x l' H; try discriminate.
  - injection H as -> ->. reflexivity.
  - apply (IH i x). exact H.
Qed.

(** a healthy stream on [pre ++ rest] positioned after [pre] *)
Definition bat (pre rest : list Z) : bstate := BSt (pre ++ rest) (length pre) false false.

Lemma b_read_bat : forall bs k pre rest, length bs = k ->
  b_read k (bat pre (bs ++ rest)) = (Some bs, bat (pre ++ bs) rest).
Proof.
  intros bs k pre rest <-. unfold b_read, bat. cbn [b_fail b_eof b_pos b_data orb].
  rewrite !app_length.
  assert (Nat.eqb (length bs) 0 || Nat.leb (length pre + length bs) (length pre + (length bs + length rest)) = true) as ->.
  { apply orb_true_iff. right. apply Nat.leb_le. lia. }
  rewrite skipn_app, Nat.sub_diag, skipn_all, skipn_O. cbn [app].
  rewrite firstn_app, Nat.sub_diag, firstn_all, firstn_O, app_nil_r, <- app_assoc. reflexivity.
Qed.

Lemma rd_i32_bat : forall z pre rest,
  rd_i32 (bat pre (enc32 z ++ rest)) = Ok (i32 z, bat (pre ++ enc32 z) rest).
Proof.
  intros. unfold rd_i32. rewrite b_read_bat by apply enc32_length. rewrite dec_enc_i32. reflexivity.
Qed.
Lemma rd_f32_bat : forall z pre rest, (0 <= z < two32)%Z ->
  rd_f32 (bat pre (enc32 z ++ rest)) = Ok (z, bat (pre ++ enc32 z) rest).
Proof.
  intros. unfold rd_f32. rewrite b_read_bat by apply enc32_length.
  rewrite dec_enc_u32, Z.mod_small by assumption. reflexivity.
Qed.
Lemma rd_i64_bat : forall z pre rest,
  rd_i64 (bat pre (enc64 z ++ rest)) = Ok (i64 z, bat (pre ++ enc64 z) rest).
Proof.
  intros. unfold rd_i64. rewrite b_read_bat by apply enc64_length. rewrite dec_enc_i64. reflexivity.
Qed.
Lemma verify_bat : forall v w pre rest, i32 v = i32 w ->
  verify v (bat pre (enc32 w ++ rest)) = Ok (bat (pre ++ enc32 w) rest).
Proof.
  intros v w pre rest H. unfold verify. rewrite rd_i32_bat. cbn [bind]. rewrite H, Z.eqb_refl. reflexivity.
Qed.
Lemma rd_many_i32_bat : forall zs pre rest,
  rd_many rd_i32 (length zs) (bat pre (flat_map enc32 zs ++ rest))
  = Ok (map i32 zs, bat (pre ++ flat_map enc32 zs) rest).
Proof.
  induction zs as [|z zs IH]; intros pre rest.
  - simpl. rewrite app_nil_r. reflexivity.
  - change (flat_map enc32 (z :: zs)) with (enc32 z ++ flat_map enc32 zs).
    cbn [length rd_many map]. rewrite <- !app_assoc, rd_i32_bat. cbn [bind].
    rewrite IH. cbn [bind]. rewrite <- app_assoc. reflexivity.
Qed.
Lemma rd_many_f32_bat : forall zs pre rest, Forall (fun z => 0 <= z < two32)%Z zs ->
  rd_many rd_f32 (length zs) (bat pre (flat_map enc32 zs ++ rest))
  = Ok (zs, bat (pre ++ flat_map enc32 zs) rest).
Proof.
  induction zs as [|z zs IH]; intros pre rest Hz.
  - simpl. rewrite app_nil_r. reflexivity.
  - inversion Hz; subst.
    change (flat_map enc32 (z :: zs)) with (enc32 z ++ flat_map enc32 zs).
    cbn [length rd_many]. rewrite <- !app_assoc, rd_f32_bat by assumption. cbn [bind].
    rewrite IH by assumption. cbn [bind]. rewrite <- app_assoc. reflexivity.
Qed.
Lemma rd_buffer_bat : forall zs pre rest, Forall (fun z => 0 <= z < two32)%Z zs ->
  rd_buffer (length zs) (bat pre (flat_map enc32 zs ++ rest)) = (zs, bat (pre ++ flat_map enc32 zs) rest).
Proof.
  intros zs pre rest H. unfold rd_buffer.
  rewrite b_read_bat by apply flat_enc32_length. rewrite dec_words_enc by assumption. reflexivity.
Qed.
Lemma rd_record_i32_bat : forall zs n pre rest, n = length zs ->
  rd_record rd_i32 n (bat pre (wr_record zs ++ rest)) = Ok (map i32 zs, bat (pre ++ wr_record zs) rest).
Proof.
  intros zs n pre rest ->. unfold rd_record, wr_record. rewrite <- !app_assoc.
  rewrite verify_bat by reflexivity. cbn [bind].
  rewrite rd_many_i32_bat. cbn [bind]. rewrite verify_bat by reflexivity. cbn [bind].
  rewrite <- !app_assoc. reflexivity.
Qed.
Lemma rd_record_f32_bat : forall zs n pre rest, n = length zs -> Forall (fun z => 0 <= z < two32)%Z zs ->
  rd_record rd_f32 n (bat pre (wr_record zs ++ rest)) = Ok (zs, bat (pre ++ wr_record zs) rest).
Proof.
  intros zs n pre rest -> Hz. unfold rd_record, wr_record. rewrite <- !app_assoc.
  rewrite verify_bat by reflexivity. cbn [bind].
  rewrite rd_many_f32_bat by assumption. cbn [bind]. rewrite verify_bat by reflexivity. cbn [bind].
  rewrite <- !app_assoc. reflexivity.
Qed.

Lemma map_i32_id : forall A (g : A -> Z) l, Forall (fun x => in_i32 (g x) = true) l -> map i32 (map g l) = map g l.
Proof.
  intros A g l H. induction H as [|x l Hx Hl IH]; [reflexivity|]. simpl. rewrite IH, i32_id by assumption. reflexivity.
Qed.

Lemma u64_i32_nat : forall n, (Z.of_nat n < two31)%Z -> u64 (i32 (Z.of_nat n)) = Z.of_nat n.
Proof.
  intros n H. rewrite i32_id by (apply in_i32_iff; unfold two31 in *; lia).
  apply u64_id. unfold two31, two64 in *. lia.
Qed.
Lemma u64_i64_nat : forall n, (Z.of_nat n < two63)%Z -> u64 (i64 (Z.of_nat n)) = Z.of_nat n.
Proof.
  intros n H. rewrite i64_id by (apply in_i64_iff; unfold two63 in *; lia).
  apply u64_id. unfold two63, two64 in *. lia.
Qed.

(** * Sizes *)
Lemma tget_tset : forall A (t : tri A) s x s', tget (tset t s x) s' = if species_eqb s s' then x else tget t s'.
Proof. intros A [a b c] [] x []; reflexivity. Qed.

Lemma evaluate_sizes_acc : forall ss t sp,
  tget (fold_left (fun t s => tset t (ss_species (s_bra s)) (tget t (ss_species (s_bra s)) + sector_count s)) ss t) sp
  = tget t sp + list_sum (map sector_count (filter (fun s => species_eqb (ss_species (s_bra s)) sp) ss)).
Proof.
  induction ss as [|s ss IH]; intros t sp; simpl; [lia|].
  rewrite IH, tget_tset. destruct (species_eqb (ss_species (s_bra s)) sp) eqn:He; simpl; [|lia].
  assert (ss_species (s_bra s) = sp) as -> by (destruct (ss_species (s_bra s)), sp; simpl in He; congruence). lia.
Qed.

Lemma evaluate_sizes_total : forall ss sp, Forall canonical_sector ss ->
  tget (evaluate_sizes ss) sp = total_held sp ss.
Proof.
  intros ss sp Hc. unfold evaluate_sizes. rewrite evaluate_sizes_acc.
  replace (tget (Tri 0 0 0) sp) with 0 by (destruct sp; reflexivity). simpl.
  unfold total_held. f_equal.
  induction Hc as [|s ss Hs Hc IH]; [reflexivity|]. simpl.
  destruct (species_eqb _ _); simpl; [|assumption].
  rewrite IH. rewrite count_held_entries, sector_count_entries by auto using canonical_upper. reflexivity.
Qed.

Local Opaque enc32 enc64.
Section Round.
Variable E : env.
Hypothesis Henv : env_ok E.
Notation D := (dbl E).

Lemma narrow_range : forall (A : Type) (g : A -> D) l, Forall (fun z => 0 <= z < two32)%Z (map (fun x => narrow E (g x)) l).
Proof. intros. apply Forall_forall. intros z Hz. apply in_map_iff in Hz. destruct Hz as (x & <- & _). apply eo_narrow. assumption. Qed.

Lemma zip_orbitals_map : forall os, Forall (fun o => single E (o_w o)) os ->
  zip_orbitals E (map o_n os) (map o_l os) (map o_2j os) (map (twice_tz E) os)
    (map (fun o => narrow E (o_w o)) os) = Ok os.
Proof.
  induction 1 as [|o os Ho Hos IH]; [reflexivity|].
  cbn [map zip_orbitals]. rewrite IH. destruct o as [sp n l j w]. unfold single in Ho. simpl in *.
  destruct sp; simpl; rewrite Ho; reflexivity.
Qed.

Lemma select_p_app : forall p n : list (orbital D), Forall (fun o => o_sp o = SP) p -> Forall (fun o => o_sp o = SN) n ->
  select_p E (p ++ n) = p.
Proof.
  intros p n Hp Hn. unfold select_p. rewrite filter_app.
  assert (filter (is_p E) p = p) as ->.
  { induction Hp as [|o p Ho Hp IH]; [reflexivity|]. simpl. unfold is_p at 1. rewrite Ho, IH. reflexivity. }
  assert (filter (is_p E) n = []) as ->.
  { induction Hn as [|o n Ho Hn IH]; [reflexivity|]. simpl. unfold is_p at 1. rewrite Ho. assumption. }
  apply app_nil_r.
Qed.
Lemma select_n_app : forall p n : list (orbital D), Forall (fun o => o_sp o = SP) p -> Forall (fun o => o_sp o = SN) n ->
  select_n E (p ++ n) = n.
Proof.
  intros p n Hp Hn. unfold select_n. rewrite filter_app.
  assert (filter (fun o => negb (is_p E o)) p = []) as ->.
  { induction Hp as [|o p Ho Hp IH]; [reflexivity|]. simpl. unfold is_p at 1. rewrite Ho. assumption. }
  assert (filter (fun o => negb (is_p E o)) n = n) as ->.
  { induction Hn as [|o n Ho Hn IH]; [reflexivity|]. simpl. unfold is_p at 1. rewrite Ho. simpl. rewrite IH. reflexivity. }
  reflexivity.
Qed.

Lemma tget_size_fields : forall t : tri nat, t_pp t = tget t PP /\ t_nn t = tget t NN /\ t_pn t = tget t PN.
Proof. intros []. auto. Qed.

Lemma sizes_match_id : forall ss (g : Z -> Z) n, Forall canonical_sector ss -> sizes_below n ss ->
  (forall k, (Z.of_nat k <= n)%Z -> u64 (g (Z.of_nat k)) = Z.of_nat k) ->
  sizes_match (Tri (g (Z.of_nat (t_pp (evaluate_sizes ss)))) (g (Z.of_nat (t_nn (evaluate_sizes ss))))
    (g (Z.of_nat (t_pn (evaluate_sizes ss))))) (evaluate_sizes ss) = true.
Proof.
  intros ss g n Hc Hs Hg. unfold sizes_match. cbn [t_pp t_nn t_pn].
  destruct (tget_size_fields (evaluate_sizes ss)) as (-> & -> & ->).
  rewrite !Hg; [rewrite !Z.eqb_refl; reflexivity|..]; rewrite evaluate_sizes_total by assumption; apply Hs.
Qed.

Lemma wmax_single : forall ix, header_fits E ix ->
  WMax (widen E (narrow E (w_p (ix_w E ix)))) (widen E (narrow E (w_n (ix_w E ix))))
    (widen E (narrow E (w_pp (ix_w E ix)))) (widen E (narrow E (w_nn (ix_w E ix))))
    (widen E (narrow E (w_pn (ix_w E ix)))) = ix_w E ix.
Proof.
  intros ix H. destruct H as [_ _ _ _ _ _ _ _ H1 H2 H3 H4 H5]. unfold single in *.
  rewrite H1, H2, H3, H4, H5. destruct (ix_w E ix). reflexivity.
Qed.

(** ** version 15200 header *)
Lemma header_15200 : forall ix h pre rest, indexing_ok E ix -> header_fits E ix ->
  sizes_below (two63 - 1) (ix_sectors E ix) ->
  wr_header_bin_15200 E ix = Ok h ->
  rd_header_bin_15200 E (bat pre (h ++ rest)) = Ok (ix, bat (pre ++ h) rest).
Proof.
  intros ix h pre rest Hok Hfit Hsz Hw. unfold wr_header_bin_15200 in Hw.
  apply bind_ok in Hw. destruct Hw as ([] & Hord & Hw). apply cassert_ok in Hord.
  apply bind_ok in Hw. destruct Hw as ([] & Hwp & Hw). apply cassert_ok in Hwp.
  apply bind_ok in Hw. destruct Hw as ([] & Hwn & Hw). apply cassert_ok in Hwn.
  apply (eo_eqb E Henv) in Hwp. apply (eo_eqb E Henv) in Hwn.
  apply Ok_inj in Hw. subst h.
  set (os := ix_p E ix ++ ix_n E ix) in *.
  assert (Hlen : Z.to_nat (Z.of_nat (length (ix_p E ix)) + Z.of_nat (length (ix_n E ix))) = length os).
  { unfold os. rewrite app_length. lia. }
  pose proof (hf_num E ix Hfit) as Hnum.
  assert (Hi : forall n, n <= length (ix_p E ix) + length (ix_n E ix) -> i32 (Z.of_nat n) = Z.of_nat n).
  { intros n Hn. apply i32_id, in_i32_iff. unfold two31 in *. lia. }
  unfold rd_header_bin_15200. repeat rewrite <- app_assoc.
  rewrite rd_i32_bat. cbn [bind]. rewrite rd_i32_bat. cbn [bind].
  rewrite !Hi by lia. rewrite <- Nat2Z.inj_add, Hi by lia.
  unfold count_of. destruct (Z.ltb_spec (Z.of_nat (length (ix_p E ix) + length (ix_n E ix))) 0) as [Hl|_]; [lia|].
  cbn [bind]. rewrite Nat2Z.id. rewrite <- app_length. fold os.
  rewrite <- (map_length o_n os) at 1. rewrite rd_many_i32_bat. cbn [bind].
  rewrite <- (map_length o_l os) at 1. rewrite rd_many_i32_bat. cbn [bind].
  rewrite <- (map_length o_2j os) at 1. rewrite rd_many_i32_bat. cbn [bind].
  rewrite <- (map_length (twice_tz E) os) at 1. rewrite rd_many_i32_bat. cbn [bind].
  rewrite <- (map_length (fun o => narrow E (o_w o)) os) at 1.
  rewrite rd_many_f32_bat by apply narrow_range. cbn [bind].
  rewrite !map_i32_id; [|apply Forall_forall; intros o _; destruct o as [[] ]; reflexivity|apply (hf_j E ix Hfit)|apply (hf_l E ix Hfit)|apply (hf_n E ix Hfit)].
  rewrite zip_orbitals_map by apply (hf_w E ix Hfit). cbn [bind].
  rewrite rd_i32_bat. cbn [bind]. rewrite rd_i32_bat. cbn [bind]. rewrite rd_i32_bat. cbn [bind].
  rewrite rd_f32_bat by (apply eo_narrow; assumption). cbn [bind].
  rewrite rd_f32_bat by (apply eo_narrow; assumption). cbn [bind].
  rewrite rd_f32_bat by (apply eo_narrow; assumption). cbn [bind].
  rewrite rd_i64_bat. cbn [bind]. rewrite rd_i64_bat. cbn [bind]. rewrite rd_i64_bat. cbn [bind].
  rewrite !(i32_id (ix_J0 E ix)), !(i32_id (ix_g0 E ix)), !(i32_id (ix_Tz0 E ix)) by (apply Hfit).
  unfold finish_header_15200. unfold os. destruct Hok as [Hsp Hse Hcan Hp Hn].
  rewrite select_p_app, select_n_app by assumption.
  rewrite Hwp, Hwn, (wmax_single ix Hfit).
  assert (HordE : ix_ord E ix = KTz) by (destruct (ix_ord E ix); [discriminate|reflexivity]).
  destruct ix as [p n ord w sp J0 g0 Tz0 se]. cbn [ix_p ix_n ix_ord ix_w ix_space ix_J0 ix_g0 ix_Tz0 ix_sectors] in *. subst ord.
  rewrite <- Hsp, <- Hse.
  rewrite (sizes_match_id se i64 (two63 - 1)) by (auto; intros; apply u64_i64_nat; lia).
  cbn [cassert bind]. rewrite <- !app_assoc. reflexivity.
Qed.

(** ** version 15099 header *)
Lemma species_15099 : forall os sp pre rest,
  Forall (fun o => o_sp o = sp) os ->
  Forall (fun o => in_i32 (o_n o) = true) os -> Forall (fun o => in_i32 (o_l o) = true) os ->
  Forall (fun o => in_i32 (o_2j o) = true) os -> Forall (fun o => single E (o_w o)) os ->
  rd_species_bin_15099 E sp (length os) (bat pre (wr_species_bin_15099 E os ++ rest))
  = Ok (os, bat (pre ++ wr_species_bin_15099 E os) rest).
Proof.
  intros os sp pre rest Hsp Hn Hl Hj Hw. unfold rd_species_bin_15099, wr_species_bin_15099.
  rewrite <- !app_assoc.
  rewrite rd_record_i32_bat by (rewrite map_length; reflexivity). cbn [bind].
  rewrite rd_record_i32_bat by (rewrite map_length; reflexivity). cbn [bind].
  rewrite rd_record_i32_bat by (rewrite map_length; reflexivity). cbn [bind].
  rewrite rd_record_f32_bat by (try apply narrow_range; rewrite map_length; reflexivity). cbn [bind].
  rewrite !map_i32_id by assumption.
  replace (repeat match sp with SP => 1%Z | SN => (-1)%Z end (length os)) with (map (twice_tz E) os).
  2:{ clear -Hsp. induction Hsp as [|o os Ho Hos IH]; [reflexivity|]. simpl. rewrite IH. f_equal.
      unfold twice_tz. rewrite Ho. reflexivity. }
  rewrite zip_orbitals_map by assumption. cbn [bind]. rewrite <- !app_assoc. reflexivity.
Qed.

Lemma verify_rec : forall ws k pre rest, (Z.of_nat (length ws) * 4 = k)%Z ->
  verify k (bat pre (wr_record ws ++ rest))
  = Ok (bat (pre ++ enc32 k) (flat_map enc32 ws ++ enc32 k ++ rest)).
Proof.
  intros ws k pre rest <-. unfold wr_record. rewrite <- !app_assoc. apply verify_bat. reflexivity.
Qed.

Lemma Jmax_max : forall space t sp, (0 <= tget t sp)%Z ->
  tget (fold_left (fun t ss => tset t (ss_species ss) (Z.max (tget t (ss_species ss)) (ss_J ss))) space t) sp
  = Z.max (tget t sp) (max_J sp space).
Proof.
  unfold max_J. induction space as [|s space IH]; intros t sp Ht; simpl; [lia|].
  destruct (species_eqb (ss_species s) sp) eqn:He.
  - assert (ss_species s = sp) as <- by (destruct (ss_species s), sp; simpl in He; congruence).
    rewrite IH; rewrite tget_tset, He; [|lia]. cbn [map fold_right]. lia.
  - rewrite IH; rewrite tget_tset, He; [reflexivity|assumption].
Qed.
Lemma max_J_nonneg : forall sp space, (0 <= max_J sp space)%Z.
Proof. intros. unfold max_J. induction (map ss_J _); simpl; lia. Qed.
Lemma Jmax_spec : forall space sp, tget (evaluate_Jmax space) sp = max_J sp space.
Proof.
  intros. unfold evaluate_Jmax. assert (H : tget (Tri 0 0 0)%Z sp = 0%Z) by (destruct sp; reflexivity).
  rewrite Jmax_max; rewrite H; [|lia]. pose proof (max_J_nonneg sp space). lia.
Qed.


Lemma header_15099 : forall ix h pre rest, indexing_ok E ix -> header_fits E ix ->
  sizes_below (two31 - 1) (ix_sectors E ix) -> ix_Tz0 E ix = 0%Z -> Jmax_fits E ix ->
  wr_header_bin_15099 E ix = Ok h ->
  rd_header_bin_15099 E (bat pre (h ++ rest)) = Ok (ix, bat (pre ++ h) rest).
Proof.
  intros ix h pre rest Hok Hfit Hsz HTz HJ Hw. unfold wr_header_bin_15099 in Hw.
  apply bind_ok in Hw. destruct Hw as ([] & Hord & Hw). apply cassert_ok in Hord.
  apply Ok_inj in Hw. subst h.
  pose proof (hf_num E ix Hfit) as Hnum.
  assert (Hi : forall n, n <= length (ix_p E ix) + length (ix_n E ix) -> i32 (Z.of_nat n) = Z.of_nat n).
  { intros n Hn. apply i32_id, in_i32_iff. unfold two31 in *. lia. }
  assert (HJ2 : forall sp, i32 (2 * tget (evaluate_Jmax (ix_space E ix)) sp) = (2 * tget (evaluate_Jmax (ix_space E ix)) sp)%Z).
  { intros sp. apply i32_id, in_i32_iff. specialize (HJ sp). rewrite Jmax_spec.
    assert (0 <= max_J sp (ix_space E ix))%Z.
    { apply max_J_nonneg. }
    unfold two31 in *. lia. }
  unfold rd_header_bin_15099. rewrite <- !app_assoc.
  rewrite verify_rec by reflexivity. cbn [bind flat_map]. rewrite <- !app_assoc. cbn [app].
  rewrite rd_i32_bat. cbn [bind]. rewrite rd_i32_bat. cbn [bind].
  rewrite verify_bat by reflexivity. cbn [bind].
  rewrite !Hi by lia.
  unfold count_of. destruct (Z.ltb_spec (Z.of_nat (length (ix_p E ix))) 0) as [Hl|_]; [lia|].
  destruct (Z.ltb_spec (Z.of_nat (length (ix_n E ix))) 0) as [Hl|_]; [lia|].
  cbn [bind]. rewrite !Nat2Z.id.
  pose proof (hf_n E ix Hfit) as F1. pose proof (hf_l E ix Hfit) as F2.
  pose proof (hf_j E ix Hfit) as F3. pose proof (hf_w E ix Hfit) as F4.
  apply Forall_app in F1. apply Forall_app in F2. apply Forall_app in F3. apply Forall_app in F4.
  destruct F1 as [F1p F1n], F2 as [F2p F2n], F3 as [F3p F3n], F4 as [F4p F4n].
  rewrite species_15099 by (try apply Hok; assumption). cbn [bind].
  rewrite species_15099 by (try apply Hok; assumption). cbn [bind].
  do 2 (rewrite verify_rec by reflexivity; cbn [bind flat_map]; rewrite <- !app_assoc; cbn [app];
  repeat (first [rewrite rd_i32_bat | rewrite rd_f32_bat by (apply eo_narrow; assumption)]; cbn [bind]);
  rewrite verify_bat by reflexivity; cbn [bind]).
  do 3 (rewrite verify_rec by reflexivity; cbn [bind flat_map]; rewrite <- !app_assoc; cbn [app];
  repeat (first [rewrite rd_i32_bat | rewrite rd_f32_bat by (apply eo_narrow; assumption)]; cbn [bind]);
  rewrite verify_bat by reflexivity; cbn [bind]).
  rewrite !(i32_id (ix_J0 E ix)), !(i32_id (ix_g0 E ix)), !(i32_id (ix_Tz0 E ix)) by (apply Hfit).
  unfold finish_header_15099. destruct Hok as [Hsp Hse Hcan Hp Hn].
  rewrite select_p_app, select_n_app by assumption.
  rewrite (wmax_single ix Hfit).
  assert (HordE : ix_ord E ix = KPN) by (destruct (ix_ord E ix); [reflexivity|discriminate]).
  destruct ix as [p n ord w sp J0 g0 Tz0 se]. cbn [ix_p ix_n ix_ord ix_w ix_space ix_J0 ix_g0 ix_Tz0 ix_sectors] in *. subst ord.
  rewrite <- Hsp. rewrite HTz. cbn [Z.eqb check bind]. rewrite <- HTz, <- Hse.
  rewrite (sizes_match_id se i32 (two31 - 1)) by (auto; intros; apply u64_i32_nat; lia).
  cbn [cassert bind].
  destruct (evaluate_Jmax sp) as [jp jn jpn]. pose proof (HJ2 PP) as Q1. pose proof (HJ2 NN) as Q2. pose proof (HJ2 PN) as Q3.
  cbn [tget t_pp t_nn t_pn] in Q1, Q2, Q3 |- *. rewrite Q1, Q2, Q3.
  rewrite !(Z.mul_comm 2), !Z.quot_mul, !Z.eqb_refl by discriminate. cbn [andb cassert bind].
  unfold wr_record. cbn [flat_map app length]. rewrite <- !app_assoc. reflexivity.
Qed.

(** ** version 0 header *)

Lemma finish_0 : forall ix, indexing_ok E ix -> v0_scheme E ix -> sizes_below (two31 - 1) (ix_sectors E ix) ->
  ix_ord E ix = KPN ->
  finish_header_0 E 2 (d_to_int E (w_p (ix_w E ix))) (d_to_int E (w_pp (ix_w E ix)))
    (i32 (Z.of_nat (t_pp (evaluate_sizes (ix_sectors E ix))))) (i32 (Z.of_nat (t_pn (evaluate_sizes (ix_sectors E ix)))))
  = Ok ix.
Proof.
  intros ix Hok Hv Hsz Hord. unfold finish_header_0.
  rewrite (v0_orb E ix Hv), (v0_w E ix Hv).
  pose proof (sizes_match_id (ix_sectors E ix) i32 (two31 - 1)) as Hm.
  destruct Hok as [Hsp Hse Hcan Hp Hn], Hv as [_ _ _ _ HJ Hg HT].
  specialize (Hm Hcan Hsz ltac:(intros; apply u64_i32_nat; lia)).
  destruct ix as [p n ord w sp J0 g0 Tz0 se]. cbn [ix_p ix_n ix_ord ix_w ix_space ix_J0 ix_g0 ix_Tz0 ix_sectors] in *. subst ord J0 g0 Tz0.
  rewrite <- Hsp, <- Hse. cbn [Z.eqb Pos.eqb cassert bind].
  unfold sizes_match in Hm. cbn [t_pp t_nn t_pn] in Hm.
  apply andb_true_iff in Hm. destruct Hm as [Hm Hm3]. apply andb_true_iff in Hm. destruct Hm as [Hm1 Hm2].
  rewrite Hm1, Hm3. reflexivity.
Qed.

Lemma header_0 : forall ix h pre rest, indexing_ok E ix -> v0_scheme E ix ->
  sizes_below (two31 - 1) (ix_sectors E ix) ->
  wr_header_bin_0 E ix = Ok h ->
  rd_header_bin_0 E (bat pre (h ++ rest)) = Ok (ix, bat (pre ++ h) rest).
Proof.
  intros ix h pre rest Hok Hv Hsz Hw. unfold wr_header_bin_0 in Hw.
  apply bind_ok in Hw. destruct Hw as ([] & Hord & Hw). apply cassert_ok in Hord. apply Ok_inj in Hw. subst h.
  assert (HordE : ix_ord E ix = KPN) by (destruct (ix_ord E ix); [reflexivity|discriminate]).
  unfold rd_header_bin_0, v0_header_fields.
  rewrite verify_rec by reflexivity; cbn [bind flat_map]; rewrite <- !app_assoc; cbn [app].
  repeat (rewrite rd_i32_bat; cbn [bind]). rewrite verify_bat by reflexivity; cbn [bind].
  rewrite !i32_idem, (i32_id (d_to_int E (w_p (ix_w E ix)))), (i32_id (d_to_int E (w_pp (ix_w E ix)))) by apply Hv.
  change (i32 2) with 2%Z. rewrite finish_0 by assumption. cbn [bind].
  unfold wr_record. cbn [flat_map app length]. rewrite <- !app_assoc. reflexivity.
Qed.

(** ** sectors *)

Lemma first_ok : forall ss i, i < length ss -> exists b, first_of_type ss i = Ok b.
Proof.
  intros ss i Hi. unfold first_of_type. destruct (Nat.ltb_spec i (length ss)); [|lia]. cbn [cassert bind].
  destruct (Nat.eqb i 0); [eauto|].
  destruct (nth_error ss i) eqn:H1; [|apply nth_error_None in H1; lia].
  destruct (nth_error ss (i - 1)) eqn:H2; [|apply nth_error_None in H2; lia]. simpl. eauto.
Qed.
Lemma last_ok : forall ss i, i < length ss -> exists b, last_of_type ss i = Ok b.
Proof.
  intros ss i Hi. unfold last_of_type. destruct (Nat.ltb_spec i (length ss)); [|lia]. cbn [cassert bind].
  destruct (Nat.eqb_spec i (length ss - 1)); [eauto|].
  destruct (nth_error ss i) eqn:H1; [|apply nth_error_None in H1; lia].
  destruct (nth_error ss (i + 1)) eqn:H2; [|apply nth_error_None in H2; lia]. simpl. eauto.
Qed.

Definition delims (b : bool) (v : Z) : list Z := if b then enc32 v else [].
Lemma verify_if_bat : forall b v pre rest,
  verify_if b v (bat pre (delims b v ++ rest)) = Ok (bat (pre ++ delims b v) rest).
Proof.
  intros [] v pre rest; simpl.
  - apply verify_bat. reflexivity.
  - rewrite app_nil_r. reflexivity.
Qed.

Lemma delimiter_fits : forall f ix s, f <> V15200 -> Forall canonical_sector (ix_sectors E ix) -> record_fits E f ix ->
  (0 <= delimiter (ix_sectors E ix) s < kMaxRecordLength)%Z.
Proof.
  intros f ix s Hf Hc Hr. unfold delimiter. rewrite evaluate_sizes_total by assumption.
  destruct f; [| |congruence]; unfold record_fits in Hr; specialize (Hr (ss_species (s_ket s))); (split; [lia|assumption]).
Qed.

Lemma delimiter_0_fits : forall ix s, Forall canonical_sector (ix_sectors E ix) -> record_fits E V0 ix ->
  delimiter_0 (ix_sectors E ix) s = Ok (delimiter (ix_sectors E ix) s).
Proof.
  intros ix s Hc Hr. pose proof (delimiter_fits V0 ix s ltac:(discriminate) Hc Hr) as H.
  unfold delimiter_0, delimiter in *. set (n := Z.of_nat _) in *.
  rewrite (i32_id n) by (apply in_i32_iff; unfold kMaxRecordLength, two31 in *; lia).
  assert (in_i32 (n * 4) = true) as -> by (apply in_i32_iff; unfold kMaxRecordLength, two31 in *; lia).
  f_equal. lia.
Qed.

Lemma val_range : forall c s m l, Forall (fun z => 0 <= z < two32)%Z (map (val E c s m) l).
Proof.
  intros. apply Forall_forall. intros z Hz. apply in_map_iff in Hz. destruct Hz as (p & <- & _). apply eo_narrow. assumption.
Qed.

(** what a writer appends for sector i *)
Definition sec_image (f : format) (ix : indexing E) (i : nat) (s : sector) (m : mat D) (c : conversion) : list Z :=
  delims (has_records f && okb (first_of_type (ix_sectors E ix) i)) (delimiter (ix_sectors E ix) s)
  ++ flat_map enc32 (map (val E c s m) (elems s))
  ++ delims (has_records f && okb (last_of_type (ix_sectors E ix) i)) (delimiter (ix_sectors E ix) s).

Lemma wr_bin_image : forall f ix i s m c, nth_error (ix_sectors E ix) i = Some s ->
  Forall canonical_sector (ix_sectors E ix) -> record_fits E f ix -> (f = V0 -> is_diag s = true) ->
  wr_bin E f ix i m c = Ok (sec_image f ix i s m c).
Proof.
  intros f ix i s m c Hs Hc Hr Hd.
  assert (Hi : i < length (ix_sectors E ix)) by (apply nth_error_Some; congruence).
  assert (Hcs : canonical_sector s) by (rewrite Forall_forall in Hc; eapply Hc, nth_error_In; eauto).
  pose proof (canonical_upper s Hcs) as Hu.
  destruct (first_ok _ _ Hi) as (bf & Hbf). destruct (last_ok _ _ Hi) as (bl & Hbl).
  unfold sec_image.
  destruct f; simpl wr_bin.
  - unfold wr_bin_0. rewrite Hs. cbn [get bind]. rewrite Hu. cbn [cassert bind]. rewrite Hd by reflexivity. cbn [cassert bind].
    rewrite Hbf, Hbl. cbn [bind].
    pose proof (delimiter_fits V0 ix s ltac:(discriminate) Hc Hr) as Hdel.
    assert ((if bf then cassert (delimiter (ix_sectors E ix) s <? kMaxRecordLength)%Z else Ok tt) = Ok tt) as ->.
    { destruct bf; [|reflexivity]. destruct (Z.ltb_spec (delimiter (ix_sectors E ix) s) kMaxRecordLength); [reflexivity|lia]. }
    cbn [bind]. rewrite wr_loop_bin_spec by auto. reflexivity.
  - unfold wr_bin_15099. rewrite Hs. cbn [get bind]. rewrite Hu. cbn [cassert bind].
    rewrite Hbf, Hbl. cbn [bind].
    pose proof (delimiter_fits V15099 ix s ltac:(discriminate) Hc Hr) as Hdel.
    assert ((if bf then cassert (delimiter (ix_sectors E ix) s <? kMaxRecordLength)%Z else Ok tt) = Ok tt) as ->.
    { destruct bf; [|reflexivity]. destruct (Z.ltb_spec (delimiter (ix_sectors E ix) s) kMaxRecordLength); [reflexivity|lia]. }
    cbn [bind]. rewrite wr_loop_bin_spec by (auto; discriminate). reflexivity.
  - unfold wr_bin_15200. rewrite Hs. cbn [get bind]. rewrite Hu. cbn [cassert bind].
    rewrite wr_loop_bin_spec by (auto; discriminate). cbn [bind has_records andb delims app]. rewrite app_nil_r. reflexivity.
Qed.

Lemma sec_image_length : forall f ix i s m c, nth_error (ix_sectors E ix) i = Some s ->
  canonical_sector s -> length (sec_image f ix i s m c) = sec_bytes E f ix i.
Proof.
  intros f ix i s m c Hs Hc. unfold sec_image, sec_bytes. rewrite Hs, !app_length, flat_enc32_length, map_length, elems_length by assumption.
  assert (Hd : forall b v, length (delims b v) = delim_bytes b) by (intros [] v; [apply enc32_length|reflexivity]).
  rewrite !Hd. lia.
Qed.

Lemma rd_bin_image : forall f ix i s m c pre rest, nth_error (ix_sectors E ix) i = Some s ->
  Forall canonical_sector (ix_sectors E ix) -> record_fits E f ix -> (f = V0 -> is_diag s = true) ->
  exists r, rd_bin E f ix i (bat pre (sec_image f ix i s m c ++ rest))
            = Ok (r, bat (pre ++ sec_image f ix i s m c) rest)
          /\ reads_back E via_binary c s m r.
Proof.
  intros f ix i s m c pre rest Hs Hc Hr Hd.
  assert (Hi : i < length (ix_sectors E ix)) by (apply nth_error_Some; congruence).
  assert (Hcs : canonical_sector s) by (rewrite Forall_forall in Hc; eapply Hc, nth_error_In; eauto).
  pose proof (canonical_upper s Hcs) as Hu.
  destruct (first_ok _ _ Hi) as (bf & Hbf). destruct (last_ok _ _ Hi) as (bl & Hbl).
  set (buf := map (val E c s m) (elems s)).
  assert (Hlb : length buf = sector_entries s) by (unfold buf; rewrite map_length; apply elems_length; assumption).
  destruct (rd_loop_bin_total E s buf Hcs Hlb) as (r & Hrd).
  exists r. split; [|apply rd_loop_bin_values; exact Hrd].
  unfold sec_image. fold buf. rewrite Hbf, Hbl. cbn [okb].
  assert (Hbuf : forall pre rest, rd_buffer (sector_entries s) (bat pre (flat_map enc32 buf ++ rest)) = (buf, bat (pre ++ flat_map enc32 buf) rest)).
  { intros. rewrite <- Hlb. apply rd_buffer_bat. apply val_range. }
  rewrite <- !app_assoc.
  destruct f; simpl rd_bin; cbn [has_records andb].
  - unfold rd_bin_0. rewrite Hs. cbn [get bind]. rewrite Hu. cbn [cassert bind]. rewrite Hd by reflexivity. cbn [cassert bind].
    rewrite Hbf, Hbl. cbn [bind]. rewrite delimiter_0_fits by assumption. cbn [bind].
    fold (verify_if bf (delimiter (ix_sectors E ix) s) (bat pre (delims bf (delimiter (ix_sectors E ix) s) ++ flat_map enc32 buf ++ delims bl (delimiter (ix_sectors E ix) s) ++ rest))).
    rewrite verify_if_bat. cbn [bind]. rewrite Hbuf, Hrd. cbn [bind].
    match goal with |- bind ?x _ = _ => change x with (verify_if bl (delimiter (ix_sectors E ix) s)
      (bat ((pre ++ delims bf (delimiter (ix_sectors E ix) s)) ++ flat_map enc32 buf) (delims bl (delimiter (ix_sectors E ix) s) ++ rest))) end.
    rewrite verify_if_bat. cbn [bind]. rewrite <- !app_assoc. reflexivity.
  - unfold rd_bin_15099. rewrite Hs. cbn [get bind]. rewrite Hu. cbn [cassert bind].
    rewrite Hbf, Hbl. cbn [bind]. rewrite verify_if_bat. cbn [bind]. rewrite Hbuf, Hrd. cbn [bind].
    rewrite verify_if_bat. cbn [bind]. rewrite <- !app_assoc. reflexivity.
  - unfold rd_bin_15200. rewrite Hs. cbn [get bind]. rewrite Hu. cbn [cassert bind delims app].
    rewrite Hbuf, Hrd. cbn [bind]. rewrite app_nil_r. reflexivity.
Qed.

(** ** the whole file *)

(** bytes of sectors i, i+1, ... *)
Fixpoint images (f : format) (ix : indexing E) (i : nat) (ss : list sector) (ws : list (mat D * conversion)) : list Z :=
  match ss, ws with
  | s :: ss', w :: ws' => sec_image f ix i s (fst w) (snd w) ++ images f ix (S i) ss' ws'
  | _, _ => []
  end.


Lemma scheme_diag : forall f ix i s, scheme E f ix -> nth_error (ix_sectors E ix) i = Some s -> f = V0 -> is_diag s = true.
Proof.
  intros f ix i s Hsch Hs ->. destruct Hsch as (_ & _ & _ & Hd). rewrite Forall_forall in Hd. apply Nat.eqb_eq. eapply Hd, nth_error_In; eauto.
Qed.

Lemma write_checks_ok : forall ix i s w, nth_error (ix_sectors E ix) i = Some s -> fits_sector E s w ->
  write_checks E ix i i (fst w) (snd w) = Ok tt.
Proof.
  intros ix i s w Hs (Hr & Hcl & Hcv). unfold write_checks. rewrite Hs. cbn [get bind].
  rewrite Nat.eqb_refl. cbn [cassert bind]. unfold ss_size. rewrite Hr, Hcl, !Nat.eqb_refl. cbn [cassert bind andb].
  destruct (snd w); [reflexivity|reflexivity|congruence].
Qed.

Definition whole_from (i : nat) (ws : list (mat D * conversion)) : list (nat * mat D * conversion) :=
  combine (combine (seq i (length ws)) (map fst ws)) (map snd ws).

Lemma write_all_bin : forall f ix, scheme E f ix -> Forall canonical_sector (ix_sectors E ix) -> record_fits E f ix ->
  forall ws ss i out, skipn i (ix_sectors E ix) = ss -> Forall2 (fits_sector E) ss ws ->
  write_history E (write_sector_bin E) (whole_from i ws) (OutStr E Z f ix i out)
  = Ok (OutStr E Z f ix (i + length ws) (out ++ images f ix i ss ws)).
Proof.
  intros f ix Hsch Hc Hr. induction ws as [|w ws IH]; intros ss i out Hss HF; inversion HF as [|s w' ss' ws' Hsw HF' E1 E2]; subst.
  - cbn [write_history whole_from]. simpl. rewrite app_nil_r, Nat.add_0_r. reflexivity.
  - assert (Hs : nth_error (ix_sectors E ix) i = Some s).
    { rewrite <- (firstn_skipn i (ix_sectors E ix)) at 1. symmetry in E1. rewrite E1.
      assert (length (firstn i (ix_sectors E ix)) = i).
      { apply firstn_length_le. destruct (Nat.le_gt_cases i (length (ix_sectors E ix))); [assumption|].
        rewrite skipn_all2 in E1 by lia. discriminate. }
      rewrite nth_error_app2 by lia. rewrite H, Nat.sub_diag. reflexivity. }
    cbn [whole_from length seq map combine write_history]. unfold write_sector_bin at 1.
    cbn [os_ix os_si os_fmt os_out]. rewrite (write_checks_ok _ _ _ _ Hs Hsw). cbn [bind].
    rewrite (wr_bin_image f ix i s) by (auto; eapply scheme_diag; eauto). cbn [bind].
    fold (whole_from (S i) ws). rewrite Nat.add_1_r.
    rewrite (IH ss' (S i)).
    + cbn [images]. rewrite <- app_assoc. f_equal. f_equal. lia.
    + eapply skipn_S; eauto.
    + assumption.
Qed.

(** position of sector i in the written data *)
Lemma images_split : forall f ix ss ws i k s w, Forall2 (fits_sector E) ss ws ->
  (forall j, nth_error ss j = nth_error (ix_sectors E ix) (i + j)) ->
  Forall canonical_sector ss ->
  nth_error ss k = Some s -> nth_error ws k = Some w ->
  exists a b, images f ix i ss ws = a ++ sec_image f ix (i + k) s (fst w) (snd w) ++ b
    /\ length a = list_sum (map (sec_bytes E f ix) (seq i k)).
Proof.
  induction ss as [|s0 ss IH]; intros ws i k s w HF Hn Hc Hs Hw; [destruct k; discriminate|].
  inversion HF as [|x w0 y ws' Hsw HF' E1 E2]; subst. inversion Hc; subst.
  destruct k as [|k].
  - injection Hs as <-. injection Hw as <-. exists [], (images f ix (S i) ss ws').
    rewrite Nat.add_0_r. split; reflexivity.
  - simpl in Hs, Hw.
    destruct (IH ws' (S i) k s w HF') as (a & b & Hab & Hla); auto.
    { intros j. specialize (Hn (S j)). simpl in Hn. rewrite Hn. f_equal. lia. }
    exists (sec_image f ix i s0 (fst w0) (snd w0) ++ a), b. cbn [images].
    rewrite Hab. replace (i + S k) with (S i + k) by lia. split; [rewrite <- app_assoc; reflexivity|].
    rewrite app_length, Hla. cbn [seq map list_sum fold_right].
    rewrite sec_image_length; [reflexivity| |assumption]. specialize (Hn 0). simpl in Hn. rewrite Nat.add_0_r in Hn. auto.
Qed.

Lemma format_of_code_id : forall f, format_of_code (i32 (format_code f)) = Ok f.
Proof. intros []; reflexivity. Qed.

Lemma create_bin_ok : forall f ix, scheme E f ix -> exists h, create_bin E f ix = Ok (OutStr E Z f ix 0 (wr_record [format_code f] ++ h))
  /\ (match f with V0 => wr_header_bin_0 E ix | V15099 => wr_header_bin_15099 E ix | V15200 => wr_header_bin_15200 E ix end) = Ok h.
Proof.
  intros f ix H. unfold create_bin.
  destruct f; simpl in H; destruct H as (Ho & H).
  - unfold wr_header_bin_0. rewrite Ho. simpl. eauto.
  - unfold wr_header_bin_15099. rewrite Ho. simpl. eauto.
  - unfold wr_header_bin_15200. rewrite Ho. cbn [ordering_eqb cassert bind].
    destruct H as (_ & _ & H1 & H2).
    apply (eo_eqb E Henv) in H1. apply (eo_eqb E Henv) in H2. rewrite H1, H2. cbn [cassert bind]. eauto.
Qed.

(** opening anything that starts with a written header *)
Lemma open_bin_written : forall f ix h body, indexing_ok E ix -> scheme E f ix ->
  (match f with V0 => wr_header_bin_0 E ix | V15099 => wr_header_bin_15099 E ix | V15200 => wr_header_bin_15200 E ix end) = Ok h ->
  let pre := wr_record [format_code f] ++ h in
  open_bin E (wr_record [format_code f] ++ h ++ body)
    = Ok (InStr E bstate f ix (InSt bstate 0 [Some (length pre)] (bat pre body))).
Proof.
  intros f ix h body Hok Hsch Hh pre.
  unfold open_bin.
    change (BSt (wr_record [format_code f] ++ h ++ body) 0 false false) with (bat [] (wr_record [format_code f] ++ h ++ body)).
    rewrite verify_rec by reflexivity. cbn [bind flat_map app]. rewrite app_nil_r.
    rewrite rd_i32_bat. cbn [bind]. rewrite verify_bat by reflexivity. cbn [bind b_fail bat negb check].
    rewrite format_of_code_id. cbn [bind].
    change (bind ?x ?k = ?r) with (bind x k = r).
    fold (bat ((enc32 4 ++ enc32 (format_code f)) ++ enc32 4) (h ++ body)).
    assert (Hhd : forall pr, (match f with V0 => rd_header_bin_0 E (bat pr (h ++ body)) | V15099 => rd_header_bin_15099 E (bat pr (h ++ body))
        | V15200 => rd_header_bin_15200 E (bat pr (h ++ body)) end) = Ok (ix, bat (pr ++ h) body)).
    { intros pr. destruct f; simpl in Hsch.
      - destruct Hsch as (_ & Hv & Hs & _). apply header_0; assumption.
      - destruct Hsch as (_ & Hf & HT & HJ & Hs). apply header_15099; assumption.
      - destruct Hsch as (_ & Hf & Hs & _). apply header_15200; assumption. }
    rewrite Hhd. cbn [bind]. unfold b_tell, bat at 1. cbn [b_fail b_eof orb b_pos].
    assert (((enc32 4 ++ enc32 (format_code f)) ++ enc32 4) ++ h = pre) as ->.
    { unfold pre, wr_record. cbn [flat_map length app]. rewrite app_nil_r, <- !app_assoc. reflexivity. }
    reflexivity.
Qed.

Theorem binary_round_trip : forall f ix ws,
  indexing_ok E ix -> scheme E f ix -> record_fits E f ix ->
  Forall2 (fits_sector E) (ix_sectors E ix) ws ->
  exists data, write_file_bin E f ix (whole_operator E ws) = Ok data
  /\ exists st, open_bin E data = Ok st /\ is_fmt E bstate st = f /\ is_ix E bstate st = ix
  /\ forall h, Forall (fun i => i < length (ix_sectors E ix)) h ->
     exists ms st', reads_bin E st h = Ok (ms, st')
     /\ Forall2 (fun i r => exists s m c, nth_error (ix_sectors E ix) i = Some s /\ nth_error ws i = Some (m, c)
                  /\ reads_back E via_binary c s m r) h ms.
Proof.
  intros f ix ws Hok Hsch Hr HF. pose proof (iok_canonical E ix Hok) as Hc.
  destruct (create_bin_ok f ix Hsch) as (h & Hcr & Hh).
  exists (wr_record [format_code f] ++ h ++ images f ix 0 (ix_sectors E ix) ws).
  split.
  { unfold write_file_bin. rewrite Hcr. cbn [bind].
    change (whole_operator E ws) with (whole_from 0 ws).
    rewrite (write_all_bin f ix Hsch Hc Hr ws (ix_sectors E ix)) by (auto; reflexivity).
    cbn [bind os_out]. rewrite <- app_assoc. reflexivity. }
  set (body := images f ix 0 (ix_sectors E ix) ws).
  set (pre := wr_record [format_code f] ++ h).
  pose proof (open_bin_written f ix h body Hok Hsch Hh) as Hop. cbv zeta in Hop. fold pre in Hop.
  eexists. split; [exact Hop|]. split; [reflexivity|]. split; [reflexivity|].
  intros hist Hh2.
  set (d := pre ++ body).
  (* the data of sector i *)
  assert (Hsec : forall i, i < length (ix_sectors E ix) ->
    exists s w r, nth_error (ix_sectors E ix) i = Some s /\ nth_error ws i = Some w
      /\ rd_bin E f ix i (sa_bin E f ix d (length pre) i) = Ok (r, sa_bin E f ix d (length pre) (i + 1))
      /\ reads_back E via_binary (snd w) s (fst w) r).
  { intros i Hi.
    destruct (nth_error (ix_sectors E ix) i) as [s|] eqn:Hs; [|apply nth_error_None in Hs; lia].
    destruct (Forall2_nth_l _ _ _ _ _ _ _ HF Hs) as (w & Hw & _).
    destruct (images_split f ix (ix_sectors E ix) ws 0 i s w HF ltac:(reflexivity) Hc Hs Hw) as (a & b & Hab & Hla).
    simpl in Hab.
    destruct (rd_bin_image f ix i s (fst w) (snd w) (pre ++ a) b Hs Hc Hr ltac:(eapply scheme_diag; eauto)) as (r & Hrd & Hback).
    exists s, w, r. split; [reflexivity|]. split; [assumption|]. split; [|assumption].
    assert (HA : sa_bin E f ix d (length pre) i = bat (pre ++ a) (sec_image f ix i s (fst w) (snd w) ++ b)).
    { unfold sa_bin, bat, tp_bin. f_equal; [|rewrite app_length, Hla; reflexivity].
      unfold d, body. rewrite Hab, <- app_assoc. reflexivity. }
    assert (HB : sa_bin E f ix d (length pre) (i + 1) = bat ((pre ++ a) ++ sec_image f ix i s (fst w) (snd w)) b).
    { unfold sa_bin, bat. rewrite tp_bin_S. f_equal.
      - unfold d, body. rewrite Hab, <- !app_assoc. reflexivity.
      - rewrite !app_length. unfold tp_bin. rewrite Hla.
        rewrite sec_image_length; [reflexivity|assumption|]. rewrite Forall_forall in Hc. eapply Hc, nth_error_In; eauto. }
    rewrite HA, HB. exact Hrd. }
  set (mm := fun i => match rd_bin E f ix i (sa_bin E f ix d (length pre) i) with Ok (r, _) => r | _ => mzero (d0 E) 0 0 end).
  destruct (bin_prog E f ix d (length pre) mm) with (h := hist) as (st' & Hst').
  { intros i Hi. destruct (Hsec i Hi) as (s & w & r & _ & _ & Hrd & _). unfold mm. rewrite Hrd. reflexivity. }
  { assumption. }
  exists (map mm hist). unfold reads_bin. cbn [is_ix is_fmt is_state].
  change (bat pre body) with (BSt d (length pre) false false). rewrite Hst'. cbn [bind]. eexists. split; [reflexivity|].
  clear Hst' st'. induction Hh2 as [|i hist Hi Hh2 IH]; [constructor|]. cbn [map]. constructor; [|exact IH].
  destruct (Hsec i Hi) as (s & [m c] & r & Hs & Hw & Hrd & Hback).
  exists s, m, c. split; [assumption|]. split; [assumption|]. unfold mm. rewrite Hrd. exact Hback.
Qed.
End Round.
