(** Sizes, Fortran records, labels, truncation, file modes and write order of H2 files. *)
From Coq Require Import String List ZArith Lia Bool Ascii.
From Verif Require Import Base BaseLemmas H2Model H2Machine H2Spec H2Elements H2Sectors H2Access H2RoundBin H2RoundTxt.
Import ListNotations.
Open Scope nat_scope.
Local Opaque enc32 enc64.

Section Extra.
Variable E : env.
Notation D := (dbl E).
Notation line := (list (word (txt E))).

Lemma held_list_elems : forall s, held_list s = elems s.
Proof.
  intros s. unfold held_list, elems, skipped, is_diag, pairs, ss_size. apply filter_ext. intros [b k]. simpl.
  destruct (Nat.eqb (s_bi s) (s_ki s)); simpl; [|reflexivity]. symmetry. apply negb_involutive.
Qed.

Lemma sector_words_val : forall s w, sector_words E s w = map (val E (snd w) s (fst w)) (elems s).
Proof. intros. unfold sector_words. rewrite held_list_elems. reflexivity. Qed.

Lemma sector_words_length : forall s w, canonical_sector s -> length (sector_words E s w) = count_held s.
Proof.
  intros s w H. rewrite sector_words_val, map_length, elems_length by assumption.
  symmetry. apply count_held_entries. assumption.
Qed.

(** * Sizes *)

Lemma total_held_sum : forall ss,
  total_held PP ss + total_held NN ss + total_held PN ss = list_sum (map count_held ss).
Proof.
  induction ss as [|s ss IH]; [reflexivity|]. unfold total_held in *. cbn [filter map list_sum].
  destruct (ss_species (s_bra s)); simpl in *; lia.
Qed.

Lemma evaluate_nums_acc : forall ss t sp,
  tget (fold_left (fun t s => tset t (ss_species (s_bra s)) (tget t (ss_species (s_bra s)) + 1)) ss t) sp
  = tget t sp + length (filter (fun s => species_eqb (ss_species (s_bra s)) sp) ss).
Proof.
  induction ss as [|s ss IH]; intros t sp; [simpl; lia|].
  cbn [fold_left]. rewrite IH, tget_tset. simpl.
  destruct (ss_species (s_bra s)), sp; simpl; lia.
Qed.
Lemma evaluate_nums_count : forall ss sp,
  tget (evaluate_nums ss) sp = length (filter (fun s => species_eqb (ss_species (s_bra s)) sp) ss).
Proof. intros. unfold evaluate_nums. rewrite evaluate_nums_acc. destruct sp; reflexivity. Qed.

Lemma tri_sizes : forall ss, Forall canonical_sector ss ->
  t_pp (evaluate_sizes ss) = total_held PP ss /\ t_nn (evaluate_sizes ss) = total_held NN ss
  /\ t_pn (evaluate_sizes ss) = total_held PN ss.
Proof.
  intros ss Hc. pose proof (fun sp => evaluate_sizes_total ss sp Hc) as H.
  split; [exact (H PP)|split; [exact (H NN)|exact (H PN)]].
Qed.

Lemma enc32_i32 : forall z, enc32 (i32 z) = enc32 z.
Proof.
  intros z. Local Transparent enc32. unfold enc32. f_equal. unfold i32.
  rewrite Zminus_mod, Z.mod_mod by (unfold two32; lia). rewrite <- Zminus_mod. f_equal. lia.
  Local Opaque enc32.
Qed.

Lemma announced_sizes_bin : forall f ix st, Forall canonical_sector (ix_sectors E ix) ->
  create_bin E f ix = Ok st -> exists pre, os_out E Z st = pre ++ size_fields f (ix_sectors E ix).
Proof.
  intros f ix st Hc H. unfold create_bin in H.
  apply bind_ok in H. destruct H as (h & Hh & H). apply Ok_inj in H. subst st. cbn [os_out].
  destruct (tri_sizes _ Hc) as (H1 & H2 & H3).
  assert (G : exists pre, h = pre ++ size_fields f (ix_sectors E ix)).
  { destruct f.
    - unfold wr_header_bin_0 in Hh. apply bind_ok in Hh. destruct Hh as (u & _ & Hh). apply Ok_inj in Hh. subst h.
      unfold wr_record, v0_header_fields. rewrite H1, H3. cbn [flat_map length size_fields]. rewrite !enc32_i32, app_nil_r.
      exists (enc32 20 ++ enc32 2 ++ enc32 (d_to_int E (w_p (ix_w E ix))) ++ enc32 (d_to_int E (w_pp (ix_w E ix)))).
      change (Z.of_nat 5 * 4)%Z with 20%Z. rewrite <- !app_assoc. reflexivity.
    - unfold wr_header_bin_15099 in Hh. apply bind_ok in Hh. destruct Hh as (u & _ & Hh). apply Ok_inj in Hh. subst h.
      rewrite H1, H2, H3.
      match goal with |- exists pre, ?a ++ ?b ++ ?c ++ ?d ++ ?e ++ ?f ++ ?g ++ ?h = _ =>
        exists (a ++ b ++ c ++ d ++ e ++ f ++ g) end.
      rewrite <- !app_assoc. reflexivity.
    - unfold wr_header_bin_15200 in Hh. apply bind_ok in Hh. destruct Hh as (u & _ & Hh).
      apply bind_ok in Hh. destruct Hh as (u1 & _ & Hh). apply bind_ok in Hh. destruct Hh as (u2 & _ & Hh).
      apply Ok_inj in Hh. subst h. rewrite H1, H2, H3. unfold size_fields.
      do 12 rewrite app_assoc. eexists. reflexivity. }
  destruct G as (pre & ->). exists (wr_record [format_code f] ++ pre). rewrite <- app_assoc. reflexivity.
Qed.

Lemma announced_sizes_txt : forall f ix st, Forall canonical_sector (ix_sectors E ix) ->
  (f = V0 -> sizes_below (two31 - 1) (ix_sectors E ix)) ->
  create_txt E f ix = Ok st -> exists pre, os_out E line st = pre ++ [size_words E f (ix_sectors E ix)].
Proof.
  intros f ix st Hc H0 H. unfold create_txt in H.
  apply bind_ok in H. destruct H as (h & Hh & H). apply Ok_inj in H. subst st. cbn [os_out].
  destruct (tri_sizes _ Hc) as (H1 & H2 & H3).
  assert (G : exists pre, h = pre ++ [size_words E f (ix_sectors E ix)]).
  { destruct f.
    - specialize (H0 eq_refl). unfold wr_header_txt_0 in Hh. apply bind_ok in Hh. destruct Hh as (u & _ & Hh).
      unfold v0_header_fields in Hh. apply Ok_inj in Hh. subst h. rewrite H1, H3.
      rewrite !i32_id by (apply in_i32_iff; unfold sizes_below, two31 in *;
        pose proof (H0 PP); pose proof (H0 PN); lia).
      exists [[WInt 2]; [WInt (d_to_int E (w_p (ix_w E ix)))]; [WInt (d_to_int E (w_pp (ix_w E ix)))]]. reflexivity.
    - unfold wr_header_txt_15099 in Hh. apply bind_ok in Hh. destruct Hh as (u & _ & Hh). apply Ok_inj in Hh. subst h.
      rewrite H1, H2, H3.
      match goal with |- exists pre, ?a ++ ?b ++ [?c1; ?c2; ?c3; ?c4; ?c5] = _ =>
        exists (a ++ b ++ [c1; c2; c3; c4]) end.
      rewrite <- !app_assoc. reflexivity.
    - unfold wr_header_txt_15200 in Hh. apply bind_ok in Hh. destruct Hh as (u & _ & Hh).
      apply bind_ok in Hh. destruct Hh as (u1 & _ & Hh). apply bind_ok in Hh. destruct Hh as (u2 & _ & Hh).
      apply Ok_inj in Hh. subst h. rewrite H1, H2, H3.
      match goal with |- exists pre, ?a ++ ?b ++ [?c1; ?c2; ?c3] = _ =>
        exists (a ++ b ++ [c1; c2]) end.
      rewrite <- !app_assoc. reflexivity. }
  destruct G as (pre & ->). exists ([WInt (format_code f)] :: pre). reflexivity.
Qed.

(** what is written for a sector, without record delimiters *)
Lemma stored_bin : forall f ix i s m c bytes, nth_error (ix_sectors E ix) i = Some s -> canonical_sector s ->
  wr_bin E f ix i m c = Ok bytes ->
  exists d1 d2, bytes = d1 ++ flat_map enc32 (sector_words E s (m, c)) ++ d2
    /\ (f = V15200 -> d1 = [] /\ d2 = []).
Proof.
  intros f ix i s m c bytes Hs Hc H. rewrite sector_words_val. cbn [fst snd]. destruct f; simpl in H.
  - unfold wr_bin_0 in H. rewrite Hs in H. cbn [get bind] in H.
    apply bind_ok in H. destruct H as (u1 & _ & H). apply bind_ok in H. destruct H as (u2 & Hd & H). apply cassert_ok in Hd.
    apply bind_ok in H. destruct H as (bf & _ & H). apply bind_ok in H. destruct H as (u3 & _ & H).
    rewrite wr_loop_bin_spec in H by auto. cbn [bind] in H.
    apply bind_ok in H. destruct H as (bl & _ & H). apply Ok_inj in H. subst bytes.
    do 2 eexists. split; [reflexivity|discriminate].
  - unfold wr_bin_15099 in H. rewrite Hs in H. cbn [get bind] in H.
    apply bind_ok in H. destruct H as (u1 & _ & H).
    apply bind_ok in H. destruct H as (bf & _ & H). apply bind_ok in H. destruct H as (u3 & _ & H).
    rewrite wr_loop_bin_spec in H by (auto; discriminate). cbn [bind] in H.
    apply bind_ok in H. destruct H as (bl & _ & H). apply Ok_inj in H. subst bytes.
    do 2 eexists. split; [reflexivity|discriminate].
  - unfold wr_bin_15200 in H. rewrite Hs in H. cbn [get bind] in H.
    apply bind_ok in H. destruct H as (u1 & _ & H).
    rewrite wr_loop_bin_spec in H by (auto; discriminate). cbn [bind] in H. apply Ok_inj in H. subst bytes.
    exists [], []. rewrite app_nil_r. auto.
Qed.

Lemma stored_txt : forall f ix i s m c lines, nth_error (ix_sectors E ix) i = Some s -> canonical_sector s ->
  (f = V0 -> s_bi s = s_ki s) -> wr_txt E f ix i m c = Ok lines -> length lines = count_held s.
Proof.
  intros f ix i s m c lines Hs Hc Hd H.
  assert (Hd' : f = V0 -> is_diag s = true) by (intros; apply Nat.eqb_eq; auto).
  rewrite (wr_txt_text E f ix i s m c Hs Hc Hd') in H. apply Ok_inj in H. subst lines.
  rewrite (sec_text_length E f ix i s m c Hs Hc). unfold sec_lines. rewrite Hs. symmetry. apply count_held_entries. assumption.
Qed.

(** * Fortran records *)


Lemma species_eqb_eq : forall a b, species_eqb a b = true <-> a = b.
Proof. intros [] []; simpl; split; congruence. Qed.

(** [first_of_type] and [last_of_type] inside A ++ G1 ++ s :: G2 ++ B *)
Lemma first_char : forall pre s post, first_of_type (pre ++ s :: post) (length pre)
  = Ok (match rev pre with
        | [] => true
        | q :: _ => negb (species_eqb (ss_species (s_bra s)) (ss_species (s_bra q)))
        end).
Proof.
  intros pre s post. unfold first_of_type.
  destruct (Nat.ltb_spec (length pre) (length (pre ++ s :: post))); [|rewrite app_length in *; simpl in *; lia].
  cbn [cassert bind]. destruct pre as [|q pre _] using rev_ind; [reflexivity|].
  rewrite rev_app_distr. cbn [rev app]. rewrite app_length. cbn [length].
  destruct (Nat.eqb_spec (length pre + 1) 0); [lia|].
  rewrite nth_error_app2 by (rewrite app_length; simpl; lia). rewrite app_length. cbn [length].
  rewrite Nat.sub_diag. cbn [nth_error get bind].
  rewrite nth_error_app1 by (rewrite app_length; simpl; lia).
  rewrite nth_error_app2 by lia. replace (length pre + 1 - 1 - length pre) with 0 by lia. reflexivity.
Qed.
Lemma last_char : forall pre s post, last_of_type (pre ++ s :: post) (length pre)
  = Ok (match post with
        | [] => true
        | q :: _ => negb (species_eqb (ss_species (s_bra s)) (ss_species (s_bra q)))
        end).
Proof.
  intros pre s post. unfold last_of_type.
  destruct (Nat.ltb_spec (length pre) (length (pre ++ s :: post))); [|rewrite app_length in *; simpl in *; lia].
  cbn [cassert bind]. rewrite app_length. cbn [length]. destruct post as [|q post].
  - cbn [length]. destruct (Nat.eqb_spec (length pre) (length pre + 1 - 1)); [reflexivity|lia].
  - cbn [length]. destruct (Nat.eqb_spec (length pre) (length pre + S (S (length post)) - 1)); [lia|].
    rewrite nth_error_app2 by lia. rewrite Nat.sub_diag. cbn [nth_error get bind].
    rewrite nth_error_app2 by lia. replace (length pre + 1 - length pre) with 1 by lia. reflexivity.
Qed.

Lemma images_app : forall f ix ss1 ws1 ss2 ws2 i, length ss1 = length ws1 ->
  images E f ix i (ss1 ++ ss2) (ws1 ++ ws2)
  = images E f ix i ss1 ws1 ++ images E f ix (i + length ss1) ss2 ws2.
Proof.
  induction ss1 as [|s ss1 IH]; intros [|w ws1] ss2 ws2 i Hl; try discriminate Hl.
  - simpl. rewrite Nat.add_0_r. reflexivity.
  - cbn [app images length]. rewrite IH by (simpl in Hl; lia). rewrite <- app_assoc.
    replace (S i + length ss1) with (i + S (length ss1)) by lia. reflexivity.
Qed.

(** one run of sectors of a species [sp] *)
Lemma images_run : forall f ix sp, has_records f = true -> forall G2 ws2 A G1 B,
  ix_sectors E ix = A ++ (G1 ++ G2) ++ B ->
  length G2 = length ws2 -> G2 <> [] ->
  Forall (fun s => ss_species (s_bra s) = sp /\ ss_species (s_ket s) = sp) (G1 ++ G2) ->
  match rev A with [] => True | q :: _ => ss_species (s_bra q) <> sp end ->
  match B with [] => True | q :: _ => ss_species (s_bra q) <> sp end ->
  let d := enc32 (4 * Z.of_nat (tget (evaluate_sizes (ix_sectors E ix)) sp)) in
  images E f ix (length A + length G1) G2 ws2
  = (match G1 with [] => d | _ => [] end)
    ++ flat_map (fun p => flat_map enc32 (sector_words E (fst p) (snd p))) (combine G2 ws2) ++ d.
Proof.
  intros f ix sp Hrec. induction G2 as [|s G2 IH]; intros [|w ws2] A G1 B Hss Hl Hne Hsp HA HB d; try discriminate Hl; [congruence|].
  cbn [images combine flat_map fst snd].
  assert (Hs : ss_species (s_bra s) = sp /\ ss_species (s_ket s) = sp).
  { rewrite Forall_forall in Hsp. apply Hsp. apply in_or_app. right. left. reflexivity. }
  destruct Hs as [Hsb Hsk].
  assert (Hss' : ix_sectors E ix = (A ++ G1) ++ s :: (G2 ++ B)).
  { rewrite Hss. rewrite <- !app_assoc. reflexivity. }
  assert (HF : first_of_type (ix_sectors E ix) (length A + length G1)
               = Ok (match G1 with [] => true | _ => false end)).
  { rewrite Hss', <- app_length, first_char. f_equal. rewrite rev_app_distr.
    destruct G1 as [|g G1'] eqn:EG.
    - simpl. destruct (rev A); [reflexivity|]. rewrite Hsb.
      destruct (species_eqb sp (ss_species (s_bra s0))) eqn:Eq; [|reflexivity].
      apply species_eqb_eq in Eq. congruence.
    - destruct (rev (g :: G1')) as [|q r] eqn:Er.
      { apply (f_equal (@length _)) in Er. rewrite rev_length in Er. discriminate. }
      cbn [app]. assert (Hin : In q (g :: G1')) by (apply in_rev; rewrite Er; left; reflexivity).
      rewrite Forall_forall in Hsp. destruct (Hsp q) as [Hq _]; [apply in_or_app; left; assumption|].
      rewrite Hsb, Hq. destruct sp; reflexivity. }
  assert (HL : last_of_type (ix_sectors E ix) (length A + length G1)
               = Ok (match G2 with [] => true | _ => false end)).
  { rewrite Hss', <- app_length, last_char. f_equal.
    destruct G2 as [|q G2'].
    - simpl. destruct B as [|q B']; [reflexivity|]. rewrite Hsb.
      destruct (species_eqb sp (ss_species (s_bra q))) eqn:Eq; [|reflexivity].
      apply species_eqb_eq in Eq. congruence.
    - cbn [app]. rewrite Forall_forall in Hsp. destruct (Hsp q) as [Hq _].
      { apply in_or_app. right. right. left. reflexivity. }
      rewrite Hsb, Hq. destruct sp; reflexivity. }
  unfold sec_image. rewrite HF, HL, Hrec. cbn [okb andb]. unfold delimiter. rewrite Hsk. fold d.
  rewrite <- sector_words_val with (w := w).
  assert (Hd1 : delims (match G1 with [] => true | _ => false end) (4 * Z.of_nat (tget (evaluate_sizes (ix_sectors E ix)) sp))
                = match G1 with [] => d | _ => [] end) by (destruct G1; reflexivity).
  assert (Hd2 : delims (match G2 with [] => true | _ => false end) (4 * Z.of_nat (tget (evaluate_sizes (ix_sectors E ix)) sp))
                = match G2 with [] => d | _ => [] end) by (destruct G2; reflexivity).
  rewrite Hd1, Hd2. destruct G2 as [|s2 G2].
  - destruct ws2; [|discriminate Hl]. cbn [images combine flat_map]. rewrite !app_nil_r. rewrite <- ?app_assoc; reflexivity.
  - specialize (IH ws2 A (G1 ++ [s]) B). rewrite app_length in IH. cbn [length] in IH.
    replace (S (length A + length G1)) with (length A + (length G1 + 1)) by lia.
    rewrite IH; [| |simpl in Hl; simpl; lia|discriminate| | |]; auto.
    + destruct G1; cbn [app]; rewrite ?app_nil_r, <- ?app_assoc; reflexivity.
    + rewrite Hss. rewrite <- !app_assoc. reflexivity.
    + rewrite <- app_assoc. exact Hsp.
Qed.

Lemma combine_app' : forall A B (a1 a2 : list A) (b1 b2 : list B), length a1 = length b1 ->
  combine (a1 ++ a2) (b1 ++ b2) = combine a1 b1 ++ combine a2 b2.
Proof.
  induction a1 as [|x a1 IH]; intros a2 [|y b1] b2 H; try discriminate H; [reflexivity|].
  cbn [app combine]. rewrite IH by (simpl in H; lia). reflexivity.
Qed.

(** all groups *)
Lemma images_groups : forall f ix, has_records f = true -> forall groups A ws,
  ix_sectors E ix = A ++ concat (map snd groups) ->
  length (concat (map snd groups)) = length ws ->
  NoDup (map fst groups) ->
  Forall (fun g : species * list sector => snd g <> [] /\
       Forall (fun s => ss_species (s_bra s) = fst g /\ ss_species (s_ket s) = fst g) (snd g)) groups ->
  (forall q sp, In q A -> In sp (map fst groups) -> ss_species (s_bra q) <> sp) ->
  images E f ix (length A) (concat (map snd groups)) ws
  = flat_map (fun sp => let d := enc32 (4 * Z.of_nat (tget (evaluate_sizes (ix_sectors E ix)) sp)) in
       d ++ flat_map enc32 (species_words E sp (concat (map snd groups)) ws) ++ d) (map fst groups).
Proof.
  intros f ix Hrec. induction groups as [|[sp G] groups IH]; intros A ws Hss Hl Hnd HG HA.
  - destruct ws; [reflexivity|discriminate].
  - cbn [map concat snd fst] in *. inversion HG as [|x y [Hne Hsp] HG' E1]; subst. cbn [fst snd] in *.
    inversion Hnd as [|x y Hnin Hnd']; subst.
    set (R := concat (map snd groups)) in *.
    assert (Hlw : length G <= length ws) by (rewrite <- Hl, app_length; lia).
    rewrite <- (firstn_skipn (length G) ws).
    set (w1 := firstn (length G) ws). set (w2 := skipn (length G) ws).
    assert (Hl1 : length w1 = length G) by (apply firstn_length_le; assumption).
    assert (Hl2 : length w2 = length R) by (unfold w2; rewrite skipn_length, <- Hl, app_length; lia).
    rewrite images_app by congruence.
    assert (HR : forall q, In q R -> In (ss_species (s_bra q)) (map fst groups)).
    { intros q Hq. unfold R in Hq. apply in_concat in Hq. destruct Hq as (g & Hg & Hq).
      apply in_map_iff in Hg. destruct Hg as ([sp' g'] & Hg & Hin). simpl in Hg. subst g'.
      rewrite Forall_forall in HG'. destruct (HG' _ Hin) as [_ H]. rewrite Forall_forall in H. destruct (H q Hq) as [H1 _].
      rewrite H1. apply (in_map fst) in Hin. exact Hin. }
    cbn [flat_map].
    assert (Hrun := images_run f ix sp Hrec G w1 A [] R). cbn [app length] in Hrun. rewrite Nat.add_0_r in Hrun.
    rewrite Hrun; auto.
    2:{ destruct (rev A) eqn:Er; [exact I|]. apply HA; [|left; reflexivity]. apply in_rev. rewrite Er. left. reflexivity. }
    2:{ destruct R as [|q R'] eqn:ER; [exact I|]. intros Hq. apply Hnin. rewrite <- Hq. apply HR. left. reflexivity. }
    rewrite <- app_length.
    assert (HIH : images E f ix (length (A ++ G)) R w2 =
      flat_map (fun sp0 => enc32 (4 * Z.of_nat (tget (evaluate_sizes (ix_sectors E ix)) sp0))
        ++ flat_map enc32 (species_words E sp0 R w2) ++ enc32 (4 * Z.of_nat (tget (evaluate_sizes (ix_sectors E ix)) sp0))) (map fst groups)).
    { apply IH; auto.
      - rewrite Hss, <- app_assoc. reflexivity.
      - intros q sp' Hq Hin Heq. apply in_app_or in Hq. destruct Hq as [Hq|Hq].
        + revert Heq. apply HA; [assumption|right; assumption].
        + rewrite Forall_forall in Hsp. destruct (Hsp q Hq) as [H1 _]. congruence. }
    rewrite HIH. clear HIH Hrun IH.
    (* words of the species *)
    assert (Hcomb : combine (G ++ R) (w1 ++ w2) = combine G w1 ++ combine R w2).
    { apply combine_app'. congruence. }
    unfold species_words at 2. rewrite Hcomb, flat_map_app.
    assert (Hown : forall sp' l w, Forall (fun s => ss_species (s_bra s) = sp') l ->
      flat_map (fun p : sector * (mat D * conversion) => if species_eqb (ss_species (s_bra (fst p))) sp' then sector_words E (fst p) (snd p) else []) (combine l w)
      = flat_map (fun p => sector_words E (fst p) (snd p)) (combine l w)).
    { clear. intros sp' l. induction l as [|s l IHl]; intros w H; [reflexivity|]. destruct w as [|x w]; [reflexivity|].
      inversion H; subst. cbn [combine flat_map fst snd]. rewrite IHl by assumption.
      destruct (species_eqb (ss_species (s_bra s)) (ss_species (s_bra s))) eqn:Eq; [reflexivity|].
      destruct (ss_species (s_bra s)); discriminate. }
    assert (Hother : forall sp' l w, (forall s, In s l -> ss_species (s_bra s) <> sp') ->
      flat_map (fun p : sector * (mat D * conversion) => if species_eqb (ss_species (s_bra (fst p))) sp' then sector_words E (fst p) (snd p) else []) (combine l w) = []).
    { clear. intros sp' l. induction l as [|s l IHl]; intros w H; [reflexivity|]. destruct w as [|x w]; [reflexivity|].
      cbn [combine flat_map fst snd]. rewrite IHl by (intros; apply H; right; assumption).
      destruct (species_eqb (ss_species (s_bra s)) sp') eqn:Eq; [|reflexivity].
      apply species_eqb_eq in Eq. exfalso. apply (H s); [left; reflexivity|assumption]. }
    assert (HGsp : Forall (fun s => ss_species (s_bra s) = sp) G).
    { eapply Forall_impl; [|exact Hsp]. simpl. tauto. }
    rewrite (Hown sp G w1 HGsp). rewrite (Hother sp R w2).
    2:{ intros s Hs Heq. apply Hnin. rewrite <- Heq. apply HR. assumption. }
    rewrite app_nil_r.
    assert (Hff : forall l, flat_map (fun p : sector * (mat D * conversion) => flat_map enc32 (sector_words E (fst p) (snd p))) l
       = flat_map enc32 (flat_map (fun p => sector_words E (fst p) (snd p)) l)).
    { clear. induction l as [|p l IHl]; [reflexivity|]. cbn [flat_map]. rewrite flat_map_app, IHl. reflexivity. }
    rewrite Hff, <- !app_assoc. do 3 f_equal.
    (* remaining groups *)
    assert (Hrest : forall sps, (forall x, In x sps -> x <> sp) ->
      flat_map (fun sp0 => enc32 (4 * Z.of_nat (tget (evaluate_sizes (ix_sectors E ix)) sp0))
        ++ flat_map enc32 (species_words E sp0 R w2) ++ enc32 (4 * Z.of_nat (tget (evaluate_sizes (ix_sectors E ix)) sp0))) sps
      = flat_map (fun sp0 => enc32 (4 * Z.of_nat (tget (evaluate_sizes (ix_sectors E ix)) sp0))
        ++ flat_map enc32 (species_words E sp0 (G ++ R) (w1 ++ w2)) ++ enc32 (4 * Z.of_nat (tget (evaluate_sizes (ix_sectors E ix)) sp0))) sps).
    { induction sps as [|x sps IHs]; intros Hx; [reflexivity|]. cbn [flat_map]. rewrite IHs by (intros; apply Hx; right; assumption).
      unfold species_words. rewrite Hcomb, flat_map_app. rewrite (Hother x G w1); [reflexivity|].
      intros s Hs Heq. rewrite Forall_forall in HGsp. rewrite (HGsp s Hs) in Heq. apply (Hx x); [left; reflexivity|auto]. }
    apply Hrest. intros x Hx ->. contradiction.
Qed.

Lemma wr_record_fortran : forall ws, wr_record ws = fortran_record (flat_map enc32 ws).
Proof.
  intros ws. unfold wr_record, fortran_record. rewrite flat_enc32_length.
  replace (Z.of_nat (length ws) * 4)%Z with (Z.of_nat (4 * length ws)) by lia. reflexivity.
Qed.

Lemma species_words_length : forall sp ss ws, Forall canonical_sector ss -> length ss = length ws ->
  length (species_words E sp ss ws) = total_held sp ss.
Proof.
  intros sp. induction ss as [|s ss IH]; intros [|w ws] Hc Hl; try discriminate Hl; [reflexivity|].
  inversion Hc; subst. unfold species_words, total_held in *. cbn [combine flat_map filter fst snd].
  rewrite app_length, IH by (auto; simpl in Hl; lia).
  destruct (species_eqb (ss_species (s_bra s)) sp).
  - rewrite sector_words_length by assumption. cbn [map list_sum fold_right]. reflexivity.
  - reflexivity.
Qed.

Definition header_records (f : format) (ix : indexing E) : list (list Z) :=
  match f with
  | V0 => [flat_map enc32 (v0_header_fields E ix)]
  | _ =>
    let sizes := evaluate_sizes (ix_sectors E ix) in
    let Jmax := evaluate_Jmax (ix_space E ix) in
    map (flat_map enc32)
    ([[Z.of_nat (length (ix_p E ix)); Z.of_nat (length (ix_n E ix))];
      map o_n (ix_p E ix); map o_l (ix_p E ix); map o_2j (ix_p E ix);
      map (fun o => narrow E (o_w o)) (ix_p E ix);
      map o_n (ix_n E ix); map o_l (ix_n E ix); map o_2j (ix_n E ix);
      map (fun o => narrow E (o_w o)) (ix_n E ix);
      [ix_J0 E ix; ix_g0 E ix; ix_Tz0 E ix];
      [narrow E (w_p (ix_w E ix)); narrow E (w_n (ix_w E ix))];
      [narrow E (w_pp (ix_w E ix)); narrow E (w_nn (ix_w E ix)); narrow E (w_pn (ix_w E ix))];
      [2 * t_pp Jmax; 2 * t_nn Jmax; 2 * t_pn Jmax]%Z;
      [Z.of_nat (t_pp sizes); Z.of_nat (t_nn sizes); Z.of_nat (t_pn sizes)]])
  end.

Lemma fortran_file : forall f ix ws groups data, env_ok E -> f <> V15200 ->
  indexing_ok E ix -> scheme E f ix -> record_fits E f ix ->
  grouped groups (ix_sectors E ix) -> Forall2 (fits_sector E) (ix_sectors E ix) ws ->
  write_file_bin E f ix (whole_operator E ws) = Ok data ->
  exists header, Forall (fun r => (Z.of_nat (length r) < 2147483648)%Z)
      (header ++ map (fun sp => flat_map enc32 (species_words E sp (ix_sectors E ix) ws)) (map fst groups))
  /\ data = flat_map fortran_record
      (enc32 (format_code f) :: header
       ++ map (fun sp => flat_map enc32 (species_words E sp (ix_sectors E ix) ws)) (map fst groups)).
Proof.
  intros f ix ws groups data Henv Hf Hok Hsch Hr (Hg1 & Hg2 & Hg3) HF Hw.
  pose proof (iok_canonical E ix Hok) as Hc.
  pose proof (Forall2_len _ _ _ _ _ HF) as Hlen.
  destruct (create_bin_ok E Henv f ix Hsch) as (h & Hcr & Hh).
  unfold write_file_bin in Hw. rewrite Hcr in Hw. cbn [bind] in Hw.
  change (whole_operator E ws) with (whole_from E 0 ws) in Hw.
  rewrite (write_all_bin E f ix Hsch Hc Hr ws (ix_sectors E ix)) in Hw by (auto; reflexivity).
  cbn [bind os_out] in Hw. apply Ok_inj in Hw. subst data.
  assert (Hhd : h = flat_map fortran_record (header_records f ix)).
  { destruct f; [| |congruence].
    - unfold wr_header_bin_0 in Hh. apply bind_ok in Hh. destruct Hh as (u & _ & Hh). apply Ok_inj in Hh. subst h.
      rewrite wr_record_fortran. cbn [header_records flat_map]. rewrite app_nil_r. reflexivity.
    - unfold wr_header_bin_15099 in Hh. apply bind_ok in Hh. destruct Hh as (u & _ & Hh). apply Ok_inj in Hh. subst h.
      unfold wr_species_bin_15099. rewrite !wr_record_fortran. unfold header_records. cbn [map].
      set (fr := fortran_record). cbn [flat_map]. rewrite app_nil_r, <- !app_assoc. reflexivity. }
  exists (header_records f ix). split.
  - apply Forall_app. split.
    + destruct f; [| |congruence].
      * repeat constructor.
      * destruct Hsch as (_ & Hfit & _). pose proof (hf_num E ix Hfit) as Hn. unfold two31 in Hn.
        apply Forall_forall. intros r Hin. cbn [header_records] in Hin. apply in_map_iff in Hin.
        destruct Hin as (l & <- & Hin). rewrite flat_enc32_length.
        simpl in Hin.
        repeat (destruct Hin as [<-|Hin]; [rewrite ?map_length; simpl length; lia|]). destruct Hin.
    + apply Forall_forall. intros r Hin. apply in_map_iff in Hin. destruct Hin as (sp & <- & _).
      rewrite flat_enc32_length, species_words_length by auto.
      destruct f; [| |congruence]; specialize (Hr sp); lia.
  - cbn [flat_map]. rewrite flat_map_app, <- Hhd, <- app_assoc.
    replace (wr_record [format_code f]) with (fortran_record (enc32 (format_code f))).
    2:{ rewrite wr_record_fortran. cbn [flat_map]. rewrite app_nil_r. reflexivity. }
    f_equal. f_equal.
    pose proof (images_groups f ix ltac:(destruct f; [reflexivity|reflexivity|congruence]) groups [] ws) as Himg.
    rewrite <- Hg1 in Himg. cbn [app length] in Himg. rewrite Himg; auto.
    clear - Hc Hlen. induction (map fst groups) as [|sp l IH]; [reflexivity|]. cbn [flat_map map]. rewrite IH. f_equal.
    rewrite evaluate_sizes_total by assumption. unfold fortran_record.
    rewrite flat_enc32_length, species_words_length by auto.
    replace (4 * Z.of_nat (total_held sp (ix_sectors E ix)))%Z with (Z.of_nat (4 * total_held sp (ix_sectors E ix))) by lia.
    reflexivity.
Qed.
End Extra.
