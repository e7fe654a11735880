(** Reading of density files. *)
From Coq Require Import String List ZArith Reals Bool Lra Lia.
From Verif Require Import Base RMat H2Model MapModel OscModel BlockModel BlockSpec BlockProof ObioModel ObioSpec ObioProof ObioFinal ObioMore MixModel MixProof ObmModel NatModel RgModel HmModel ObsModel ObsSpec.
Import ListNotations.
Open Scope R_scope.

Lemma next_words : forall (pre : list dline) l ws more old, with_words pre = l :: ws -> exists pre', with_words pre' = ws
  /\ next_line old (pre ++ more) true = (l, open_text (pre' ++ more) true).
Proof.
  induction pre as [|x pre IH]; intros l ws more old H; [discriminate|]. cbn in H. destruct x as [|t x].
  - cbn in H. destruct (IH l ws more [] H) as (pre' & Hw & E). exists pre'. split; [exact Hw|]. cbn [app next_line is_nil]. rewrite andb_false_r. exact E.
  - cbn in H. injection H as <- <-. exists pre. split; [reflexivity|]. cbn. rewrite andb_false_r. reflexivity.
Qed.
Lemma get_words : forall (pre : list dline) l ws more, with_words pre = l :: ws -> exists pre', with_words pre' = ws
  /\ forall old, get_line old (open_text (pre ++ more) true) = (l, open_text (pre' ++ more) true).
Proof.
  intros pre l ws more H. destruct (next_words pre l ws more [] H) as (pre' & Hw & E). exists pre'. split; [exact Hw|]. intros old. unfold get_line. cbn [open_text st_fail st_eof orb st_rest st_nl].
  destruct (next_words pre l ws more old H) as (p2 & Hw2 & E2). clear - E H. revert old. induction pre as [|x pre IH]; intros old; [discriminate|]. destruct x as [|t x].
  - cbn in H. cbn [app next_line is_nil] in *. rewrite andb_false_r in *. exact E.
  - cbn in H. injection H as <- <-. cbn in *. exact E.
Qed.
Lemma get_words0 : forall (ls : list dline) l ws, with_words ls = l :: ws -> exists r, with_words r = ws
  /\ forall old, get_line old (open_text ls true) = (l, open_text r true).
Proof. intros ls l ws H. destruct (get_words ls l ws [] H) as (r & Hw & E). exists r. split; [exact Hw|]. intros old. specialize (E old). rewrite !app_nil_r in E. exact E. Qed.
Lemma next_blanks : forall (pre : list dline) l more old, with_words pre = [] -> l <> [] -> next_line old (pre ++ l :: more) true = (l, open_text more true).
Proof.
  induction pre as [|x pre IH]; intros l more old H Hl.
  - cbn. rewrite andb_false_r. destruct l; [congruence|reflexivity].
  - destruct x; [|discriminate]. cbn [app next_line is_nil]. rewrite andb_false_r. apply IH; [exact H|exact Hl].
Qed.
Lemma get_next : forall (pre : list dline) l more old, with_words pre = [] -> l <> [] -> get_line old (open_text (pre ++ l :: more) true) = (l, open_text more true).
Proof. intros. unfold get_line. cbn [open_text st_fail st_eof orb st_rest st_nl]. apply next_blanks; assumption. Qed.

Lemma species_number : forall sp s, species_size sp s = orbitals_in sp s.
Proof. intros sp s. unfold species_size, orbitals_in. do 2 f_equal. apply filter_ext. intros o. destruct (ll_sp (oi_lab o)), s; reflexivity. Qed.
(** ** Words *)
Lemma ints_scan : forall l z zs, ints l (z :: zs) -> exists l', scan_i l = Ok (z, l') /\ ints l' zs.
Proof.
  intros l z zs (rest & -> & H). inversion H; subst. exists (map TInt zs ++ rest). split; [|exists rest; auto]. cbn. rewrite H2. reflexivity.
Qed.
Lemma counts_scan : forall l z zs, counts l (z :: zs) -> exists l', scan_u l = Ok (z, l') /\ counts l' zs.
Proof.
  intros l z zs (rest & -> & H). inversion H; subst. exists (map TInt zs ++ rest). split; [|exists rest; auto]. cbn. rewrite H2. reflexivity.
Qed.
Lemma ints_all : forall zs l, ints l zs -> scan_ints (length zs) l = Ok zs.
Proof.
  induction zs as [|z zs IH]; intros l H; [reflexivity|]. destruct (ints_scan _ _ _ H) as (l' & E & H'). cbn [length scan_ints]. rewrite E. cbn [bind]. rewrite (IH l' H'). reflexivity.
Qed.
Lemma number_scan : forall t rest x, number_of t x -> scan_d (t :: rest) = Ok (x, rest).
Proof. intros t rest x [->|(z & -> & ->)]; reflexivity. Qed.
Lemma numbers : forall ts vs, Forall2 number_of ts vs -> map as_number ts = map Some vs.
Proof. induction 1 as [|t x ts vs [->|(z & -> & ->)] _ IH]; cbn; [reflexivity| |]; rewrite IH; reflexivity. Qed.
Lemma ints_nonblank : forall l z zs, ints l (z :: zs) -> l <> [].
Proof. intros l z zs (rest & -> & _). discriminate. Qed.
Lemma counts_nonblank : forall l z zs, counts l (z :: zs) -> l <> [].
Proof. intros l z zs (rest & -> & _). discriminate. Qed.

Lemma single_state_ok : forall l x, state_line l x -> single_state l (n_2J x) (n_g x) (n_n x) = Ok (n_Z x, n_N x, n_2M x).
Proof.
  intros l x (seq & p & rest & -> & Hp). cbn [app single_state]. rewrite Z.eqb_refl. cbn [cassert bind].
  destruct Hp as [[-> ->]|[-> ->]]; cbn; rewrite Z.eqb_refl; reflexivity.
Qed.
Lemma take_words : forall orbs (ls : list dline) rest old, with_words ls = orbs ++ rest -> exists r, with_words r = rest
  /\ take_lines (length orbs) old (open_text ls true) = (orbs, open_text r true).
Proof.
  induction orbs as [|o orbs IH]; intros ls rest old H; [exists ls; split; [exact H|reflexivity]|].
  destruct (get_words0 ls o (orbs ++ rest) H) as (r & Hr & E). destruct (IH r rest o Hr) as (r' & Hr' & E'). exists r'. split; [exact Hr'|].
  cbn [length take_lines]. rewrite E, E'. reflexivity.
Qed.
Lemma data_lines_ok : forall sp orbs (ls : list dline) els d, Forall2 element_line (with_words ls) els -> data_1520 sp orbs true ls d = read_data_1520 sp orbs true els d.
Proof.
  induction ls as [|l ls IH]; intros els d H; [inversion H; subst; reflexivity|]. destruct l as [|t l].
  - cbn [data_1520 is_nil]. apply IH. exact H.
  - cbn [with_words filter is_nil negb] in H. inversion H as [|? e ? els' He Hels]; subst. destruct He as (t' & rest & Hl & Hn & Ha & Hb & HJ).
    cbn [data_1520 is_nil read_data_1520]. rewrite !andb_false_r. rewrite Hl. cbn [app scan_i]. rewrite Ha. cbn [bind scan_i]. rewrite Hb. cbn [bind scan_i]. rewrite HJ. cbn [bind]. rewrite (number_scan _ _ _ Hn). cbn [bind].
    unfold orbital_no. destruct (if (1 <=? dl_a e)%Z then _ else _); [|reflexivity]. cbn [bind]. destruct (if (1 <=? dl_b e)%Z then _ else _); [|reflexivity]. cbn [bind].
    destruct (put_labelled _ _ _ _ _ _); try reflexivity. cbn [bind]. apply IH. exact Hels.
Qed.

Section Single.
Variable parse_orbitals : list dline -> outcome (list (oinfo R)).
Lemma elements_els : forall orbs ls, elements_1520 orbs ls = els_1520 orbs ls.
Proof.
  intros orbs ls. induction ls as [|l ls IH]; [reflexivity|]. unfold elements_1520 in *. cbn [flat_map els_1520]. rewrite IH. unfold el_1520.
  destruct (nth_error orbs (Z.to_nat (dl_a l - 1))), (nth_error orbs (Z.to_nat (dl_b l - 1))); reflexivity.
Qed.
Theorem single_read : forall sp t bra ket a b np nn orbl os data, space_ok (forget sp) -> single_file t bra ket a b np nn orbl data ->
  orbitals_in sp SP = np -> orbitals_in sp SN = nn -> parse_orbitals orbl = Ok os -> NoDup (map full_labels os) ->
  Z.even (n_Z bra - n_N bra - (n_Z ket - n_N ket)) = true -> (a <= b + 1)%Z ->
  NoDup (map (fun l => (dl_a l, dl_b l, dl_J0 l)) data) ->
  Forall (line_located selection (forget sp) a b (parity_change bra ket) (Tz_change bra ket) (map full_labels os)) data ->
  exists d, single_stream parse_orbitals sp (n_2J bra) (n_g bra) (n_n bra) (n_2J ket) (n_g ket) (n_n ket) t
    = Ok (DStream (n_2J bra) (n_g bra) (n_n bra) (n_2J ket) (n_g ket) (n_n ket)
        (ObDe (n_2J bra) (n_2J ket) (n_2M bra) (n_2M ket) (parity_change bra ket) (Tz_change bra ket) d))
  /\ density_of (forget sp) a b (parity_change bra ket) (Tz_change bra ket) (elements_1520 (map full_labels os) data) d.
Proof.
  intros sp [ls nl] bra ket a b np nn orbl os data Hs [Hnl (l1 & l2 & l3 & l4 & l5 & l6 & l7 & dl & e1 & e2 & Hw & H1 & H2 & H3 & H4 & H5 & H6 & H7 & Hd) Ho] Hnp Hnn Hp Hnd Hev Hab Hkeys Hloc.
  cbn [fst snd] in *. subst nl. cbn [app] in Hw.
  destruct (get_words0 _ _ _ Hw) as (r1 & W1 & G1). destruct (get_words0 _ _ _ W1) as (r2 & W2 & G2). destruct (get_words0 _ _ _ W2) as (r3 & W3 & G3).
  destruct (get_words0 _ _ _ W3) as (r4 & W4 & G4). destruct (get_words0 _ _ _ W4) as (r5 & W5 & G5). destruct (get_words0 _ _ _ W5) as (r6 & W6 & G6).
  destruct (get_words0 _ _ _ W6) as (r7 & W7 & G7). destruct (take_words orbl r7 dl l7 W7) as (r8 & W8 & G8).
  destruct (ints_scan _ _ _ H1) as (? & S1 & _). destruct (ints_scan _ _ _ H4) as (? & S4 & _). destruct (ints_scan _ _ _ H5) as (? & S5 & _).
  destruct (counts_scan _ _ _ H6) as (? & S6 & H6'). destruct (counts_scan _ _ _ H6') as (? & S6' & _).
  destruct (counts_scan _ _ _ H7) as (? & S7 & H7'). destruct (counts_scan _ _ _ H7') as (? & S7' & _).
  unfold single_stream. cbn [fst snd]. rewrite G1, S1. cbn [bind]. cbn [Z.eqb Pos.eqb]. rewrite G2, (single_state_ok _ _ H2). cbn [bind]. rewrite G3, (single_state_ok _ _ H3). cbn [bind].
  rewrite Hev. cbn [cassert bind]. rewrite G4, S4. cbn [bind]. rewrite G5, S5. cbn [bind]. rewrite G6, S6. cbn [bind]. rewrite S6'. cbn [bind].
  unfold orbitals_agree. rewrite !species_number, Hnp, Hnn, !Z.eqb_refl. cbn [cassert bind]. rewrite G7, S7. cbn [bind]. rewrite S7'. cbn [bind].
  assert (Hlen : (Z.to_nat np + Z.to_nat nn)%nat = length orbl).
  { assert (0 <= np)%Z by (rewrite <- Hnp; unfold orbitals_in; lia). assert (0 <= nn)%Z by (rewrite <- Hnn; unfold orbitals_in; lia). lia. }
  rewrite Hlen, G8, Hp. cbn [bind]. fold (Tz_change bra ket) (parity_change bra ket). change (g0_of (n_g bra) (n_g ket)) with (parity_change bra ket).
  destruct (init_ok selection (forget sp) a b (parity_change bra ket) (Tz_change bra ket) Hab) as (d0 & E0 & Hd0 & Hmin & Hmax & Hz). rewrite E0. cbn [bind].
  cbn [open_text st_fail st_eof orb st_nl st_rest]. rewrite (data_lines_ok _ _ r8 data) by (rewrite W8; exact Hd).
  rewrite (loop_1520 selection (forget sp) a b (parity_change bra ket) (Tz_change bra ket)) by exact Hloc.
  destruct (put_all_ok selection (forget sp) (parity_change bra ket) (Tz_change bra ket) (els_1520 (map full_labels os) data) d0 Hs Hd0) as (d & E & Hdo & Hm & HM & Hv & Hr).
  { rewrite Hmin, Hmax. apply els_located. exact Hloc. }
  rewrite E. cbn [bind]. exists d. split; [reflexivity|]. rewrite elements_els. assert (Hnk : NoDup (map key (els_1520 (map full_labels os) data))).
  { apply els_nodup; [exact Hnd|exact Hkeys|]. intros l Hl. rewrite Forall_forall in Hloc. destruct (Hloc l Hl) as (? & ? & _). auto. }
  split; [exact Hdo|exact (els_located _ _ _ _ _ _ _ _ Hloc)|exact Hnk|congruence|congruence|exact (Hv Hnk)|].
  intros J0 P p Q q HJ Hno. rewrite Hr; [apply Hz|rewrite Hmin, Hmax; exact HJ|exact Hno].
Qed.
End Single.

(** ** Multi-file formats *)
Lemma multi_state_ok : forall l x, multi_state_line l x -> multi_state l (n_2J x) (n_n x) = Ok (n_2M x).
Proof.
  intros l x (T & H). destruct (ints_scan _ _ _ H) as (? & S1 & H1). destruct (ints_scan _ _ _ H1) as (? & S2 & H2). destruct (ints_scan _ _ _ H2) as (? & S3 & H3). destruct (ints_scan _ _ _ H3) as (? & S4 & H4).
  unfold multi_state. rewrite S1. cbn [bind]. rewrite S2. cbn [bind]. rewrite S3. cbn [bind]. rewrite S4. cbn [bind]. rewrite !Z.eqb_refl. reflexivity.
Qed.
Lemma int_lines_ok : forall k zss (ls : list dline) lls more, with_words ls = lls ++ more -> Forall2 (fun l zs => ints l zs /\ length zs = k) lls zss ->
  exists r, with_words r = more /\ int_lines (length zss) k (open_text ls true) = Ok (zss, open_text r true).
Proof.
  intros k zss ls lls more Hw H. revert ls Hw. induction H as [|l zs lls zss [Hl Hk] _ IH]; intros ls Hw; [exists ls; auto|].
  destruct (get_words0 _ _ _ Hw) as (r & Hr & G). destruct (IH r Hr) as (r' & Hr' & E). exists r'. split; [exact Hr'|]. cbn [length int_lines]. rewrite G.
  rewrite <- Hk, (ints_all _ _ Hl). cbn [bind]. rewrite Hk, E. reflexivity.
Qed.
Definition zs_1500 (x ia ib c : Z) (i : info_line) : list Z :=
  [x; ia; fl_n (il_bra i); fl_l (il_bra i); fl_2j (il_bra i); ib; fl_n (il_ket i); fl_l (il_ket i); fl_2j (il_ket i); il_J0 i; c].
Lemma info_1500_lines : forall ls info, Forall2 info_line_1500 ls info -> exists zss, length zss = length info
  /\ Forall2 (fun l zs => ints l zs /\ length zs = 11%nat) ls zss /\ info_1500 (map fields_1500 zss) = info.
Proof.
  induction 1 as [|l i ls info (x & ia & ib & c & s & Hl & Hb & Hk & Hc) _ (zss & Hlen & H & E)]; [exists []; repeat split; constructor|].
  exists (zs_1500 x ia ib c i :: zss). split; [cbn; lia|]. split; [constructor; [split; [exact Hl|reflexivity]|exact H]|].
  unfold info_1500 in *. cbn [map]. rewrite E. f_equal. cbn. assert (Ec : class_species c = Some s) by (destruct s; subst c; reflexivity). rewrite Ec.
  destruct i as [[sb nb lb jb] [sk nk lk jk] J0]. cbn in *. subst. reflexivity.
Qed.
Lemma info_1405_lines : forall ls info, Forall2 info_line_1405 ls info -> exists zss, length zss = length info
  /\ Forall2 (fun l zs => ints l zs /\ length zs = 8%nat) ls zss /\ info_1405 (map fields_1405 zss) = info ++ map as_neutrons info.
Proof.
  intros ls info H. assert (exists zss, length zss = length info /\ Forall2 (fun l zs => ints l zs /\ length zs = 8%nat) ls zss
    /\ map (fun '(_, (na, la, ja), (nb, lb, jb), J0) => IL (FL (Some SP) na la ja) (FL (Some SP) nb lb jb) J0) (map fields_1405 zss) = info) as (zss & Hl & Hf & E).
  { induction H as [|l i ls info (x & Hl & Hb & Hk) _ (zss & Hlen & H & E)]; [exists []; repeat split; constructor|].
    exists ([x; fl_n (il_bra i); fl_l (il_bra i); fl_2j (il_bra i); fl_n (il_ket i); fl_l (il_ket i); fl_2j (il_ket i); il_J0 i] :: zss).
    split; [cbn; lia|]. split; [constructor; [split; [exact Hl|reflexivity]|exact H]|]. cbn [map]. rewrite E. f_equal. cbn.
    destruct i as [[sb nb lb jb] [sk nk lk jk] J0]. cbn in *. subst. reflexivity. }
  exists zss. split; [exact Hl|]. split; [exact Hf|]. unfold info_1405. rewrite E. reflexivity.
Qed.
Lemma read_info_1500 : forall sp t J0_max np nn ep en info, info_1500_file t J0_max np nn ep en info -> orbitals_in sp SP = np -> orbitals_in sp SN = nn ->
  (0 <= ep)%Z -> (0 <= en)%Z -> read_info sp t = Ok (1500, J0_max, ep, en, info)%Z.
Proof.
  intros sp [ls nl] J0_max np nn ep en info [Hnl (l1 & l2 & l3 & l4 & pre & c1 & c2 & body & more & Hls & Hw & H1 & H2 & H3 & H4 & lls & Hb & Hi) Hc] Hnp Hnn Hep Hen.
  cbn [fst snd] in *. subst nl ls. destruct (get_words pre l1 [l2; l3] (l4 :: c1 :: c2 :: body) Hw) as (p1 & W1 & G1).
  destruct (get_words p1 l2 [l3] (l4 :: c1 :: c2 :: body) W1) as (p2 & W2 & G2). destruct (get_words p2 l3 [] (l4 :: c1 :: c2 :: body) W2) as (p3 & W3 & G3).
  destruct (ints_scan _ _ _ H1) as (? & S1 & _). destruct (ints_scan _ _ _ H2) as (? & S2 & _).
  destruct (counts_scan _ _ _ H3) as (? & S3 & H3'). destruct (counts_scan _ _ _ H3') as (? & S3' & _).
  destruct (counts_scan _ _ _ H4) as (? & S4 & H4'). destruct (counts_scan _ _ _ H4') as (? & S4' & _).
  unfold read_info. cbn [fst snd]. rewrite G1, S1. cbn [bind]. cbn [Z.eqb Pos.eqb]. unfold info_header_1500. rewrite G2, S2. cbn [bind]. rewrite G3, S3. cbn [bind]. rewrite S3'. cbn [bind].
  unfold orbitals_agree. rewrite !species_number, Hnp, Hnn, !Z.eqb_refl. cbn [cassert bind]. rewrite (get_next p3 l4 _ l3 W3) by (eapply counts_nonblank; exact H4). rewrite S4. cbn [bind]. rewrite S4'. cbn [bind].
  assert (Er : raw_line (raw_line (open_text (c1 :: c2 :: body) true)) = open_text body true).
  { destruct c1, c2, body; reflexivity. }
  rewrite Er. destruct (info_1500_lines lls info Hi) as (zss & Hlen & Hz & E). destruct (int_lines_ok 11 zss body lls more Hb Hz) as (r & _ & Ei).
  replace (Z.to_nat ep + Z.to_nat en)%nat with (length zss) by lia. rewrite Ei. cbn [bind]. rewrite E. reflexivity.
Qed.
Lemma read_info_1405 : forall sp t J0_max n e info, info_1405_file t J0_max n e info -> orbitals_in sp SP = n -> orbitals_in sp SN = n ->
  read_info sp t = Ok (1405, J0_max, e, e, info ++ map as_neutrons info)%Z.
Proof.
  intros sp [ls nl] J0_max n e info [Hnl (l1 & l2 & l3 & l4 & lls & more & Hw & H1 & H2 & H3 & H4 & Hi) Hc] Hnp Hnn.
  cbn [fst snd app] in *. subst nl. destruct (get_words0 _ _ _ Hw) as (r1 & W1 & G1). destruct (get_words0 _ _ _ W1) as (r2 & W2 & G2). destruct (get_words0 _ _ _ W2) as (r3 & W3 & G3). destruct (get_words0 _ _ _ W3) as (r4 & W4 & G4).
  destruct (ints_scan _ _ _ H1) as (? & S1 & _). destruct (counts_scan _ _ _ H2) as (? & S2 & _). destruct (ints_scan _ _ _ H3) as (? & S3 & _). destruct (counts_scan _ _ _ H4) as (? & S4 & _).
  unfold read_info. cbn [fst snd]. rewrite G1, S1. cbn [bind]. cbn [Z.eqb Pos.eqb]. unfold info_header_1405. rewrite G2, S2. cbn [bind]. unfold orbitals_agree. rewrite !species_number, Hnp, Hnn, !Z.eqb_refl. cbn [cassert bind].
  rewrite G3, S3. cbn [bind]. rewrite G4, S4. cbn [bind]. destruct (info_1405_lines lls info Hi) as (zss & Hlen & Hz & E). destruct (int_lines_ok 8 zss r4 lls more W4 Hz) as (r & _ & Ei).
  replace (Z.to_nat e) with (length zss) by lia. rewrite Ei. cbn [bind]. rewrite E. reflexivity.
Qed.
Lemma data_header_ok : forall t version bra ket announced vs ep en, multi_data t version bra ket announced vs ->
  (version = 1405 /\ announced = [ep; en] \/ version = 1500 /\ announced = [ep + en])%Z ->
  exists s rest, data_header version ep en (n_2J bra) (n_n bra) (n_2J ket) (n_n ket) (open_text (fst t) (snd t)) = Ok (n_2M bra, n_2M ket, s) /\ rest_words s = map Some vs ++ rest.
Proof.
  intros [ls nl] version bra ket announced vs ep en [Hnl (l1 & l2 & l3 & l4 & l5 & pre & body & Hls & Hw & H1 & H2 & H3 & H4 & H5 & _ & ts & rest & Hb & Hts)] Hv.
  cbn [fst snd] in *. subst nl ls. destruct (get_words pre l1 _ (l5 :: body) Hw) as (p1 & W1 & G1). destruct (get_words p1 l2 _ (l5 :: body) W1) as (p2 & W2 & G2).
  destruct (get_words p2 l3 _ (l5 :: body) W2) as (p3 & W3 & G3). destruct (get_words p3 l4 _ (l5 :: body) W3) as (p4 & W4 & G4).
  destruct (ints_scan _ _ _ H1) as (? & S1 & _). destruct (ints_scan _ _ _ H2) as (? & S2 & H2'). destruct (ints_scan _ _ _ H2') as (? & S2' & _).
  assert (Hn5 : l5 <> []) by (destruct announced; [destruct Hv as [[_ Hv]|[_ Hv]]; discriminate|eapply counts_nonblank; exact H5]).
  pose proof (get_next p4 l5 body l4 W4 Hn5) as G5.
  exists (open_text body true), (map as_number rest). split.
  - unfold data_header. rewrite G1, S1. cbn [bind]. rewrite Z.eqb_refl. cbn [cassert bind]. rewrite G2, S2. cbn [bind]. rewrite S2'. cbn [bind]. rewrite G3, (multi_state_ok _ _ H3). cbn [bind]. rewrite G4, (multi_state_ok _ _ H4). cbn [bind].
    destruct Hv as [[-> ->]|[-> ->]].
    + unfold dline in *. rewrite G5. cbn [Z.eqb Pos.eqb]. destruct (counts_scan _ _ _ H5) as (? & S5 & H5'). destruct (counts_scan _ _ _ H5') as (? & S5' & _).
      rewrite S5. cbn [bind]. rewrite S5'. cbn [bind]. rewrite !Z.eqb_refl. reflexivity.
    + unfold dline in *. rewrite G5. cbn [Z.eqb Pos.eqb]. destruct (counts_scan _ _ _ H5) as (? & S5 & _). rewrite S5. cbn [bind]. rewrite !Z.eqb_refl. reflexivity.
  - unfold rest_words. cbn [open_text st_fail st_eof orb st_rest]. rewrite Hb, map_app, (numbers _ _ Hts). reflexivity.
Qed.
Theorem multi_read : forall sp ti td J0_max version announced info bra ket vs, space_ok (forget sp) -> info_file sp ti J0_max version announced info ->
  multi_data td version bra ket announced vs -> length vs = length info -> (-1 <= J0_max)%Z -> NoDup info ->
  Forall (fun i => located selection (forget sp) 0 J0_max (parity_change bra ket) 0 (il_bra i) (il_ket i) (il_J0 i)) info ->
  exists d, multi_stream sp (n_2J bra) (n_g bra) (n_n bra) (n_2J ket) (n_g ket) (n_n ket) ti td
    = Ok (DStream (n_2J bra) (n_g bra) (n_n bra) (n_2J ket) (n_g ket) (n_n ket)
        (ObDe (n_2J bra) (n_2J ket) (n_2M bra) (n_2M ket) (parity_change bra ket) 0 d))
  /\ density_of (forget sp) 0 J0_max (parity_change bra ket) 0 (elements_multi info vs) d.
Proof.
  intros sp ti td J0_max version announced info bra ket vs Hs Hi Hdat Hlen HJ Hnd Hloc.
  assert (exists ep en, read_info sp ti = Ok (version, J0_max, ep, en, info) /\ (version = 1405 /\ announced = [ep; en] \/ version = 1500 /\ announced = [ep + en])%Z) as (ep & en & Er & Hv).
  { destruct Hi as [ep en info H Hep Hen|e info H Hs'].
    - exists ep, en. split; [eapply read_info_1500; eauto|right; auto].
    - exists e, e. split; [eapply read_info_1405; eauto|left; auto]. }
  destruct (data_header_ok td version bra ket announced vs ep en Hdat Hv) as (s & rest & Ed & Hw).
  unfold multi_stream. rewrite Er. cbn [bind]. rewrite Ed. cbn [bind]. change (g0_of (n_g bra) (n_g ket)) with (parity_change bra ket).
  destruct (init_ok selection (forget sp) 0 J0_max (parity_change bra ket) 0) as (d0 & E0 & Hd0 & Hmin & Hmax & Hz); [lia|]. rewrite E0. cbn [bind].
  rewrite Hw, (loop_full (forget sp) info vs rest 0 d0 Hlen).
  destruct (put_all_ok selection (forget sp) (parity_change bra ket) 0 (map (fun iv => el_of (fst iv) (scaled (fst iv) (snd iv))) (combine info vs)) d0 Hs Hd0) as (d & E & Hdo & Hm & HM & Hval & Hr).
  { rewrite Hmin, Hmax. exact (combine_located selection (forget sp) 0 J0_max (parity_change bra ket) 0 info vs scaled Hloc). }
  rewrite E. cbn [bind]. exists d. split; [reflexivity|]. assert (Hnk : NoDup (map key (map (fun iv => el_of (fst iv) (scaled (fst iv) (snd iv))) (combine info vs)))).
  { rewrite (combine_keys info vs scaled Hlen). apply NoDup_keys. exact Hnd. }
  split; [exact Hdo|exact (combine_located selection (forget sp) 0 J0_max (parity_change bra ket) 0 info vs scaled Hloc)|exact Hnk|congruence|congruence|exact (Hval Hnk)|].
  intros J0 P p Q q Hr' Hno. rewrite Hr; [apply Hz|rewrite Hmin, Hmax; exact Hr'|exact Hno].
Qed.
