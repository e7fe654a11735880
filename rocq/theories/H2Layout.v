(** The documented layouts of H2 files (doc/h2/h2v15200/h2v15200-format-description.md,
    doc/h2/h2v15099/h2v15099-format-description.md, doc/h2/h2v0/h2v0-format-description-130614.txt):
    what the writers produce and what the readers make of a header with arbitrary fields. *)
From Coq Require Import String List ZArith Lia Bool.
From Verif Require Import Base BaseLemmas H2Model H2Spec H2Elements H2Sectors H2Machine H2Access H2RoundBin H2RoundTxt H2Extra H2Extra2 H2Final.
Import ListNotations.
Open Scope nat_scope.

(** * Layouts *)

Definition ints (zs : list Z) : list Z := flat_map enc32 zs.

(** h2v15200-format-description.md, "Binary mode": a record with the format number, then without
    record structure: numbers of orbitals; the arrays n, l, 2j, 2tz, weight over all orbitals;
    J0 g0 Tz0; weights pp pn nn; sizes pp pn nn (8 bytes each). *)
Definition doc_15200 (np nn : Z) (ns ls js tzs ws quantum weights sizes : list Z) : list Z :=
  fortran_record (enc32 15200) ++ ints [np; nn] ++ ints ns ++ ints ls ++ ints js ++ ints tzs ++ ints ws
  ++ ints quantum ++ ints weights ++ flat_map enc64 sizes.

(** h2v15099-format-description.md: every header item is a Fortran record; the four arrays of
    the proton orbitals, those of the neutron orbitals; J0 g0 Tz0; weights p n; weights
    pp nn pn; twice J maximal pp nn pn; sizes pp nn pn. *)
Definition doc_15099 (np nn : Z) (pn pl pj pw : list Z) (nn_ nl nj nw : list Z)
    (quantum weights1 weights2 twiceJ sizes : list Z) : list Z :=
  flat_map (fun r => fortran_record (ints r))
    [[15099%Z]; [np; nn]; pn; pl; pj; pw; nn_; nl; nj; nw; quantum; weights1; weights2; twiceJ; sizes].

(** h2v0-format-description-130614.txt: format code in its own record, "then the rest of the
    header is in one record": number of species, one-body and two-body cutoff, number of
    like-nucleon and of proton-neutron matrix elements *)
Definition doc_0 (types N1 N2 like unlike : Z) : list Z :=
  fortran_record (ints [0%Z]) ++ fortran_record (ints [types; N1; N2; like; unlike]).

Section Text.
Context {T : Type}.
Notation line := (list (word T)).
Definition wints (zs : list Z) : line := map WInt zs.
Definition doc_txt_15200 (np nn : Z) (orbs : list line) (quantum : list Z) (weights : line) (sizes : list Z) : list line :=
  [wints [15200%Z]; wints [np; nn]] ++ orbs ++ [wints quantum; weights; wints sizes].
Definition doc_txt_15099 (np nn : Z) (orbs : list line) (quantum : list Z) (weights1 weights2 : line)
    (twiceJ sizes : list Z) : list line :=
  [wints [15099%Z]; wints [np; nn]] ++ orbs ++ [wints quantum; weights1; weights2; wints twiceJ; wints sizes].
Definition doc_txt_0 (types N1 N2 like unlike : Z) : list line :=
  [wints [0%Z]; wints [types]; wints [N1]; wints [N2]; wints [like; unlike]].
End Text.

Local Opaque enc32 enc64.
Section Layout.
Variable E : env.
Notation D := (dbl E).
Notation line := (list (word (txt E))).

Definition charge (o : orbital D) : Z := match o_sp o with SP => 1 | SN => -1 end.
Definition bits (o : orbital D) : Z := narrow E (o_w o).

(** the header of a file for an operator with indexing [ix] *)
Definition header_bytes (f : format) (ix : indexing E) : list Z :=
  let p := ix_p E ix in let n := ix_n E ix in let w := ix_w E ix in
  let np := Z.of_nat (length p) in let nn := Z.of_nat (length n) in
  let size sp := Z.of_nat (total_held sp (ix_sectors E ix)) in
  let J2 sp := (2 * max_J sp (ix_space E ix))%Z in
  let q := [ix_J0 E ix; ix_g0 E ix; ix_Tz0 E ix] in
  match f with
  | V15200 => doc_15200 np nn (map o_n (p ++ n)) (map o_l (p ++ n)) (map o_2j (p ++ n)) (map charge (p ++ n)) (map bits (p ++ n))
                q [narrow E (w_pp w); narrow E (w_pn w); narrow E (w_nn w)] [size PP; size PN; size NN]
  | V15099 => doc_15099 np nn (map o_n p) (map o_l p) (map o_2j p) (map bits p)
                (map o_n n) (map o_l n) (map o_2j n) (map bits n)
                q [narrow E (w_p w); narrow E (w_n w)] [narrow E (w_pp w); narrow E (w_nn w); narrow E (w_pn w)]
                [J2 PP; J2 NN; J2 PN] [size PP; size NN; size PN]
  | V0 => doc_0 2 (d_to_int E (w_p w)) (d_to_int E (w_pp w)) (size PP) (size PN)
  end.
Definition header_lines (f : format) (ix : indexing E) : list line :=
  let p := ix_p E ix in let n := ix_n E ix in let w := ix_w E ix in
  let np := Z.of_nat (length p) in let nn := Z.of_nat (length n) in
  let size sp := Z.of_nat (total_held sp (ix_sectors E ix)) in
  let J2 sp := (2 * max_J sp (ix_space E ix))%Z in
  let q := [ix_J0 E ix; ix_g0 E ix; ix_Tz0 E ix] in
  let num x := WTxt (fmt_d E x) in
  match f with
  | V15200 => doc_txt_15200 np nn (orb_lines E V15200 (p ++ n)) q [num (w_pp w); num (w_pn w); num (w_nn w)] [size PP; size PN; size NN]
  | V15099 => doc_txt_15099 np nn (orb_lines E V15099 (p ++ n)) q [num (w_p w); num (w_n w)] [num (w_pp w); num (w_nn w); num (w_pn w)]
                [J2 PP; J2 NN; J2 PN] [size PP; size NN; size PN]
  | V0 => doc_txt_0 2 (d_to_int E (w_p w)) (d_to_int E (w_pp w)) (size PP) (size PN)
  end.

Lemma rec_doc : forall ws, wr_record ws = fortran_record (ints ws).
Proof. exact (fun ws => wr_record_fortran ws). Qed.

Lemma sizes_get : forall ss, Forall canonical_sector ss ->
  t_pp (evaluate_sizes ss) = total_held PP ss /\ t_nn (evaluate_sizes ss) = total_held NN ss /\ t_pn (evaluate_sizes ss) = total_held PN ss.
Proof. exact tri_sizes. Qed.
Lemma Jmax_get : forall space, t_pp (evaluate_Jmax space) = max_J PP space /\ t_nn (evaluate_Jmax space) = max_J NN space
  /\ t_pn (evaluate_Jmax space) = max_J PN space.
Proof. intros. exact (conj (Jmax_spec space PP) (conj (Jmax_spec space NN) (Jmax_spec space PN))). Qed.

Lemma layout_bin : forall f ix st, Forall canonical_sector (ix_sectors E ix) ->
  create_bin E f ix = Ok st -> os_out E Z st = header_bytes f ix.
Proof.
  intros f ix st Hc H. unfold create_bin in H. apply bind_ok in H. destruct H as (h & Hh & H). apply Ok_inj in H. subst st.
  cbn [os_out]. destruct (sizes_get _ Hc) as (S1 & S2 & S3). destruct (Jmax_get (ix_space E ix)) as (J1 & J2 & J3).
  destruct f.
  - unfold wr_header_bin_0 in Hh. apply bind_ok in Hh. destruct Hh as ([] & _ & Hh). apply Ok_inj in Hh. subst h.
    unfold v0_header_fields. rewrite !rec_doc, S1, S3. unfold header_bytes, doc_0, ints. cbn [flat_map format_code].
    rewrite !enc32_i32. reflexivity.
  - unfold wr_header_bin_15099 in Hh. apply bind_ok in Hh. destruct Hh as ([] & _ & Hh). apply Ok_inj in Hh. subst h.
    unfold wr_species_bin_15099. rewrite !rec_doc, S1, S2, S3, J1, J2, J3.
    unfold header_bytes, doc_15099. cbn [flat_map format_code]. rewrite app_nil_r, <- !app_assoc. reflexivity.
  - unfold wr_header_bin_15200 in Hh. apply bind_ok in Hh. destruct Hh as ([] & _ & Hh).
    apply bind_ok in Hh. destruct Hh as ([] & _ & Hh). apply bind_ok in Hh. destruct Hh as ([] & _ & Hh). apply Ok_inj in Hh. subst h.
    rewrite rec_doc, S1, S2, S3. unfold header_bytes, doc_15200, ints. cbn [flat_map format_code].
    rewrite !app_nil_r, <- !app_assoc. reflexivity.
Qed.

Lemma layout_txt : forall f ix st, Forall canonical_sector (ix_sectors E ix) ->
  (f = V0 -> sizes_below (two31 - 1) (ix_sectors E ix)) ->
  create_txt E f ix = Ok st -> os_out E line st = header_lines f ix.
Proof.
  intros f ix st Hc Hv H. unfold create_txt in H. apply bind_ok in H. destruct H as (h & Hh & H). apply Ok_inj in H. subst st.
  cbn [os_out]. destruct (sizes_get _ Hc) as (S1 & S2 & S3). destruct (Jmax_get (ix_space E ix)) as (J1 & J2 & J3).
  destruct f.
  - unfold wr_header_txt_0, v0_header_fields in Hh. apply bind_ok in Hh. destruct Hh as ([] & _ & Hh). apply Ok_inj in Hh. subst h.
    rewrite S1, S3. specialize (Hv eq_refl).
    rewrite !i32_id by (apply in_i32_nat, Hv). reflexivity.
  - unfold wr_header_txt_15099 in Hh. apply bind_ok in Hh. destruct Hh as ([] & _ & Hh). apply Ok_inj in Hh. subst h.
    rewrite S1, S2, S3, J1, J2, J3. unfold header_lines, doc_txt_15099. cbn [app format_code]. reflexivity.
  - unfold wr_header_txt_15200 in Hh. apply bind_ok in Hh. destruct Hh as ([] & _ & Hh).
    apply bind_ok in Hh. destruct Hh as ([] & _ & Hh). apply bind_ok in Hh. destruct Hh as ([] & _ & Hh). apply Ok_inj in Hh. subst h.
    rewrite S1, S2, S3. unfold header_lines, doc_txt_15200. cbn [app format_code]. reflexivity.
Qed.

(** whole files of version 15200: header, then the elements of all sectors, without separators *)
Lemma file_15200 : forall ix h data, Forall canonical_sector (ix_sectors E ix) ->
  write_file_bin E V15200 ix h = Ok data -> length h = length (ix_sectors E ix) ->
  data = header_bytes V15200 ix
         ++ ints (concat (map (fun p => sector_words E (fst p) (snd (fst (snd p)), snd (snd p))) (combine (ix_sectors E ix) h))).
Proof.
  intros ix h data Hc H Hl. destruct (write_contents_bin E V15200 ix h data Hc H) as (st0 & parts & Hcr & Hd & HF).
  rewrite Hl, firstn_all in HF. rewrite Hd, (layout_bin _ _ _ Hc Hcr). f_equal.
  clear -HF. induction HF as [|s w p ss h ps Hp HF IH]; [reflexivity|].
  cbn [concat combine map fst snd]. unfold ints in *. rewrite flat_map_app, <- IH. f_equal.
  destruct Hp as (d1 & d2 & -> & Hd). destruct (Hd eq_refl) as (-> & ->). cbn [app]. rewrite app_nil_r. reflexivity.
Qed.

(** text files of any version: header, then one line for each element of each sector *)
Lemma file_txt : forall f ix h file, Forall canonical_sector (ix_sectors E ix) ->
  Forall (labels_fit (length (ix_p E ix))) (ix_sectors E ix) -> Forall J_fits (ix_sectors E ix) ->
  (f = V0 -> sizes_below (two31 - 1) (ix_sectors E ix)) ->
  write_file_txt E f ix h = Ok file -> length h = length (ix_sectors E ix) ->
  f_nl E file = true /\
  f_lines E file = header_lines f ix
    ++ concat (map (fun p => map (fun e => wints (element_labels f (length (ix_p E ix)) (fst p) (fst e) (snd e))
                        ++ [WTxt (fmt_f E (file_bits E (snd (snd p)) (fst p) (snd (fst (snd p))) (fst e) (snd e)))]) (held_list (fst p)))
                (combine (ix_sectors E ix) h)).
Proof.
  intros f ix h file Hc Hlab HJ Hv H Hl. destruct (write_contents_txt E f ix h file Hc Hlab HJ H) as (st0 & parts & Hcr & Hd & HF).
  rewrite Hl, firstn_all in HF. subst file. cbn [f_nl f_lines]. split; [reflexivity|]. rewrite (layout_txt _ _ _ Hc Hv Hcr). f_equal.
  clear -HF. induction HF as [|s w p ss h ps Hp HF IH]; [reflexivity|].
  cbn [concat combine map fst snd]. rewrite <- IH. f_equal. exact Hp.
Qed.

(** * What the readers make of a header *)

(** the indexing built from orbitals, weights and quantum numbers *)
Definition indexing_of (ord : ordering) (p n : list (orbital D)) (w : wmax D) (J0 g0 Tz0 : Z) : indexing E :=
  let space := mk_space E ord p n w in
  Ix E p n ord w space J0 g0 Tz0 (mk_sectors E space J0 g0 Tz0).
Definition of_species (sp : ospecies) (os : list (orbital D)) : list (orbital D) :=
  filter (fun o => match o_sp o, sp with SP, SP | SN, SN => true | _, _ => false end) os.
(** orbitals from the five arrays *)
Definition orbitals_of (ns ls js tzs ws : list Z) : list (orbital D) :=
  map (fun i => Orb (if (nth i tzs 0 =? 1)%Z then SP else SN) (nth i ns 0%Z) (nth i ls 0%Z) (nth i js 0%Z) (widen E (nth i ws 0%Z)))
      (seq 0 (length ns)).
(** the sizes announced are those of the sectors *)
Definition announces (ix : indexing E) (pp nn pn : Z) : Prop :=
  Z.of_nat (total_held PP (ix_sectors E ix)) = pp /\ Z.of_nat (total_held NN (ix_sectors E ix)) = nn
  /\ Z.of_nat (total_held PN (ix_sectors E ix)) = pn.
Definition words32 (zs : list Z) : Prop := Forall (fun z => in_i32 z = true) zs.
Definition floats32 (zs : list Z) : Prop := Forall (fun z => 0 <= z < two32)%Z zs.
Definition sane (ix : indexing E) : Prop :=
  Forall canonical_sector (ix_sectors E ix) /\ sizes_below (two63 - 1) (ix_sectors E ix).

Lemma select_p_of : forall os, select_p E os = of_species SP os.
Proof. intros os. unfold select_p, of_species. apply filter_ext. intros o. unfold is_p. destruct (o_sp o); reflexivity. Qed.
Lemma select_n_of : forall os, select_n E os = of_species SN os.
Proof. intros os. unfold select_n, of_species. apply filter_ext. intros o. unfold is_p. destruct (o_sp o); reflexivity. Qed.

Lemma orbitals_of_cons : forall n l j t w ns ls js ts ws,
  orbitals_of (n :: ns) (l :: ls) (j :: js) (t :: ts) (w :: ws)
  = Orb (if (t =? 1)%Z then SP else SN) n l j (widen E w) :: orbitals_of ns ls js ts ws.
Proof.
  intros. unfold orbitals_of. cbn [length seq map nth]. f_equal. rewrite <- seq_shift, map_map. reflexivity.
Qed.

Lemma zip_ok : forall ns ls js tzs ws, length ls = length ns -> length js = length ns -> length tzs = length ns -> length ws = length ns ->
  (Forall (fun t => t = 1 \/ t = -1)%Z tzs /\ zip_orbitals E ns ls js tzs ws = Ok (orbitals_of ns ls js tzs ws))
  \/ (~ Forall (fun t => t = 1 \/ t = -1)%Z tzs /\ zip_orbitals E ns ls js tzs ws = UB).
Proof.
  induction ns as [|n ns IH]; intros [|l ls] [|j js] [|t tzs] [|w ws] H1 H2 H3 H4; try discriminate.
  - left. split; [constructor|reflexivity].
  - cbn [length] in *. cbn [zip_orbitals]. rewrite orbitals_of_cons.
    destruct (IH ls js tzs ws) as [(Ht & Hz)|(Ht & Hz)]; try lia; rewrite Hz.
    + destruct (Z.eqb_spec t 1) as [->|Hn1]; [left; split; [constructor; auto|reflexivity]|].
      destruct (Z.eqb_spec t (-1)) as [->|Hn2]; [left; split; [constructor; auto|reflexivity]|].
      right. split; [|reflexivity]. intros F. inversion F; subst. lia.
    + right. split; [intros F; inversion F; auto|].
      destruct (Z.eqb_spec t 1); [reflexivity|]. destruct (Z.eqb_spec t (-1)); reflexivity.
Qed.

Lemma u64_eq : forall a n, in_i64 a = true -> (Z.of_nat n <= two63 - 1)%Z -> (u64 a =? Z.of_nat n)%Z = true -> Z.of_nat n = a.
Proof.
  intros a n Ha Hn H. apply Z.eqb_eq in H. apply in_i64_iff in Ha. unfold u64, two63, two64 in *.
  destruct (Z.ltb_spec a 0) as [Hneg|Hpos].
  - rewrite <- (Z_mod_plus_full a 1), Z.mod_small in H by lia. lia.
  - rewrite Z.mod_small in H by lia. lia.
Qed.

Lemma sizes_match_announces : forall ix a b c, sane ix -> in_i64 a = true -> in_i64 b = true -> in_i64 c = true ->
  sizes_match (Tri a b c) (evaluate_sizes (ix_sectors E ix)) = true -> announces ix a b c.
Proof.
  intros ix a b c (Hc & Hs) Ha Hb Hcc H. unfold sizes_match in H. destruct (sizes_get _ Hc) as (S1 & S2 & S3).
  rewrite S1, S2, S3 in H. cbn [t_pp t_nn t_pn] in H.
  apply andb_true_iff in H. destruct H as [H H3]. apply andb_true_iff in H. destruct H as [H1 H2].
  split; [|split]; apply u64_eq; auto.
Qed.

Lemma i32_i64 : forall z, in_i32 z = true -> in_i64 z = true.
Proof. intros z H. apply in_i32_iff in H. apply in_i64_iff. unfold two31, two63 in *. lia. Qed.
Lemma map_i32_words : forall zs, words32 zs -> map i32 zs = zs.
Proof. intros zs H. induction H as [|z zs Hz H IH]; [reflexivity|]. cbn [map]. rewrite IH, i32_id by assumption. reflexivity. Qed.

(** the rest of [open_bin] once the version record has been read *)
Lemma open_bin_rest : forall f body, 
  open_bin E (fortran_record (ints [format_code f]) ++ body)
  = bind (match f with
          | V0 => rd_header_bin_0 E (bat (fortran_record (ints [format_code f])) body)
          | V15099 => rd_header_bin_15099 E (bat (fortran_record (ints [format_code f])) body)
          | V15200 => rd_header_bin_15200 E (bat (fortran_record (ints [format_code f])) body)
          end)
     (fun p => let '(ix, s) := p in let (q, s) := b_tell s in Ok (InStr E bstate f ix (InSt bstate 0 [q] s))).
Proof.
  intros f body. unfold open_bin. rewrite <- rec_doc.
  change (BSt (wr_record [format_code f] ++ body) 0 false false) with (bat [] (wr_record [format_code f] ++ body)).
  rewrite verify_rec by reflexivity. cbn [bind flat_map app]. rewrite app_nil_r.
  rewrite rd_i32_bat. cbn [bind]. rewrite verify_bat by reflexivity. cbn [bind b_fail bat negb check].
  rewrite format_of_code_id. cbn [bind].
  fold (bat ((enc32 4 ++ enc32 (format_code f)) ++ enc32 4) body).
  assert ((enc32 4 ++ enc32 (format_code f)) ++ enc32 4 = wr_record [format_code f]) as ->.
  { unfold wr_record. cbn [flat_map length app]. rewrite app_nil_r, <- !app_assoc. reflexivity. }
  reflexivity.
Qed.

Lemma open_bin_finish : forall f body h ix pre rest, 
  (match f with
          | V0 => rd_header_bin_0 E (bat (fortran_record (ints [format_code f])) body)
          | V15099 => rd_header_bin_15099 E (bat (fortran_record (ints [format_code f])) body)
          | V15200 => rd_header_bin_15200 E (bat (fortran_record (ints [format_code f])) body)
          end) = bind h (fun ix : indexing E => Ok (ix, bat pre rest)) ->
  h = Ok ix ->
  exists st, open_bin E (fortran_record (ints [format_code f]) ++ body) = Ok st /\ is_fmt E bstate st = f /\ is_ix E bstate st = ix.
Proof.
  intros f body h ix pre rest H Hh. rewrite open_bin_rest, H, Hh. cbn [bind]. unfold b_tell, bat. cbn [b_fail b_eof orb b_pos].
  eexists. split; [reflexivity|]. split; reflexivity.
Qed.

Lemma announces_match : forall ix a b c, sane ix -> announces ix a b c ->
  sizes_match (Tri a b c) (evaluate_sizes (ix_sectors E ix)) = true.
Proof.
  intros ix a b c (Hc & Hs) (<- & <- & <-). unfold sizes_match. destruct (sizes_get _ Hc) as (S1 & S2 & S3).
  rewrite S1, S2, S3. cbn [t_pp t_nn t_pn].
  rewrite !u64_id by (pose proof (Hs PP); pose proof (Hs NN); pose proof (Hs PN); unfold two63, two64 in *; lia).
  rewrite !Z.eqb_refl. reflexivity.
Qed.

Definition same_length (n : nat) (ls : list (list Z)) : Prop := Forall (fun l => length l = n) ls.

Lemma reader_bin_15200 : forall np nn ns ls js tzs ws J0 g0 Tz0 wpp wpn wnn spp spn snn rest,
  same_length (length ns) [ls; js; tzs; ws] -> (np + nn = Z.of_nat (length ns))%Z ->
  words32 ([np; nn; np + nn; J0; g0; Tz0]%Z ++ ns ++ ls ++ js ++ tzs) -> floats32 ([wpp; wpn; wnn] ++ ws) ->
  Forall (fun z => in_i64 z = true) [spp; spn; snn] ->
  let data := doc_15200 np nn ns ls js tzs ws [J0; g0; Tz0] [wpp; wpn; wnn] [spp; spn; snn] ++ rest in
  let os := orbitals_of ns ls js tzs ws in
  let p := of_species SP os in let n := of_species SN os in
  let w := WMax (widen E (narrow E (weight_max_of E p))) (widen E (narrow E (weight_max_of E n)))
             (widen E wpp) (widen E wnn) (widen E wpn) in
  let ix := indexing_of KTz p n w J0 g0 Tz0 in
  sane ix ->
  (Forall (fun t => t = 1 \/ t = -1)%Z tzs -> announces ix spp snn spn ->
     exists st, open_bin E data = Ok st /\ is_fmt E bstate st = V15200 /\ is_ix E bstate st = ix)
  /\ (Forall (fun t => t = 1 \/ t = -1)%Z tzs -> ~ announces ix spp snn spn -> open_bin E data = AssertFail)
  /\ (~ Forall (fun t => t = 1 \/ t = -1)%Z tzs -> ~ is_ok (open_bin E data)).
Proof.
  intros np nn ns ls js tzs ws J0 g0 Tz0 wpp wpn wnn spp spn snn rest Hlen Hnum H32 Hf H64 data os p n w ix Hsane.
  inversion Hlen as [|? ? L1 Hlen1]; subst. inversion Hlen1 as [|? ? L2 Hlen2]; subst. inversion Hlen2 as [|? ? L3 Hlen3]; subst.
  inversion Hlen3 as [|? ? L4 _]; subst. clear Hlen Hlen1 Hlen2 Hlen3.
  unfold words32 in H32. rewrite !Forall_app in H32. destruct H32 as (H6 & Hns & Hls & Hjs & Hts).
  repeat (match goal with H : Forall _ (_ :: _) |- _ => inversion H; subst; clear H end).
  unfold floats32 in Hf. rewrite Forall_app in Hf. destruct Hf as (Hf & Hws).
  repeat (match goal with H : Forall _ (_ :: _) |- _ => inversion H; subst; clear H end).
  set (body := ints [np; nn] ++ ints ns ++ ints ls ++ ints js ++ ints tzs ++ ints ws
      ++ ints [J0; g0; Tz0] ++ ints [wpp; wpn; wnn] ++ flat_map enc64 [spp; spn; snn] ++ rest).
  assert (Hd : data = fortran_record (ints [format_code V15200]) ++ body).
  { unfold data, doc_15200, body. cbn [format_code ints flat_map]. rewrite app_nil_r. unfold ints. cbn [flat_map]. rewrite <- !app_assoc. reflexivity. }
  set (pre := fortran_record (ints [format_code V15200])) in *.
  assert (Hh : exists pre', rd_header_bin_15200 E (bat pre body)
    = bind (zip_orbitals E ns ls js tzs ws) (fun os => bind (finish_header_15200 E os J0 g0 Tz0 wpp wpn wnn (Tri spp snn spn)) (fun ix => Ok (ix, bat pre' rest)))).
  { eexists. unfold rd_header_bin_15200, body, ints at 1. cbn [flat_map app]. rewrite <- !app_assoc. cbn [app].
    rewrite rd_i32_bat. cbn [bind]. rewrite rd_i32_bat. cbn [bind].
    rewrite (i32_id np), (i32_id nn), (i32_id (np + nn)) by assumption.
    rewrite Hnum. unfold count_of. destruct (Z.ltb_spec (Z.of_nat (length ns)) 0) as [Hl|_]; [lia|]. cbn [bind]. rewrite Nat2Z.id.
    unfold ints. rewrite rd_many_i32_bat. cbn [bind].
    rewrite <- L1 at 1. rewrite rd_many_i32_bat. cbn [bind]. rewrite <- L2 at 1. rewrite rd_many_i32_bat. cbn [bind].
    rewrite <- L3 at 1. rewrite rd_many_i32_bat. cbn [bind]. rewrite <- L4 at 1. rewrite rd_many_f32_bat by assumption. cbn [bind].
    rewrite !map_i32_words by assumption.
    destruct (zip_orbitals E ns ls js tzs ws) as [os'| | |]; cbn [bind]; try reflexivity.
    cbn [flat_map]. rewrite <- !app_assoc. cbn [app].
    do 3 (rewrite rd_i32_bat; cbn [bind]). do 3 (rewrite rd_f32_bat by assumption; cbn [bind]). do 3 (rewrite rd_i64_bat; cbn [bind]).
    rewrite (i32_id J0), (i32_id g0), (i32_id Tz0), !i64_id by assumption. reflexivity. }
  destruct Hh as (pre' & Hh).
  assert (Hfin : Forall (fun t => t = 1 \/ t = -1)%Z tzs ->
     zip_orbitals E ns ls js tzs ws = Ok os /\
     finish_header_15200 E os J0 g0 Tz0 wpp wpn wnn (Tri spp snn spn)
     = (if sizes_match (Tri spp snn spn) (evaluate_sizes (ix_sectors E ix)) then Ok ix else AssertFail)).
  { intros Ht. destruct (zip_ok ns ls js tzs ws) as [(_ & Hz)|(Hn & _)]; auto; [|contradiction].
    split; [exact Hz|]. unfold finish_header_15200. rewrite select_p_of, select_n_of. fold p n.
    change (mk_sectors E (mk_space E KTz p n w) J0 g0 Tz0) with (ix_sectors E ix).
    destruct (sizes_match _ _); reflexivity. }
  split; [|split].
  - intros Ht Ha. destruct (Hfin Ht) as (Hz & Hfn). rewrite (announces_match _ _ _ _ Hsane Ha) in Hfn.
    rewrite Hd. eapply (open_bin_finish V15200 body (Ok ix) ix pre' rest); [|reflexivity].
    fold pre. rewrite Hh, Hz. cbn [bind]. rewrite Hfn. reflexivity.
  - intros Ht Ha. destruct (Hfin Ht) as (Hz & Hfn). rewrite Hd. unfold pre. rewrite open_bin_rest. fold pre. rewrite Hh, Hz. cbn [bind]. rewrite Hfn.
    destruct (sizes_match _ _) eqn:Hm; [|reflexivity].
    exfalso. apply Ha. apply sizes_match_announces; assumption.
  - intros Hn (st & Hst). rewrite Hd in Hst. unfold pre in Hst. rewrite open_bin_rest in Hst. fold pre in Hst. rewrite Hh in Hst.
    destruct (zip_ok ns ls js tzs ws) as [(Ht & _)|(_ & Hz)]; auto. rewrite Hz in Hst. discriminate.
Qed.

(** version 15099: Tz0 other than 0 is refused; the angular momenta announced must agree too *)
Definition announces_J (ix : indexing E) (pp nn pn : Z) : Prop :=
  Z.quot pp 2 = max_J PP (ix_space E ix) /\ Z.quot nn 2 = max_J NN (ix_space E ix) /\ Z.quot pn 2 = max_J PN (ix_space E ix).

Lemma J_check : forall ix a b c,
  ((Z.quot a 2 =? t_pp (evaluate_Jmax (ix_space E ix))) && (Z.quot b 2 =? t_nn (evaluate_Jmax (ix_space E ix)))
   && (Z.quot c 2 =? t_pn (evaluate_Jmax (ix_space E ix))))%Z = true <-> announces_J ix a b c.
Proof.
  intros ix a b c. destruct (Jmax_get (ix_space E ix)) as (J1 & J2 & J3). rewrite J1, J2, J3.
  rewrite !andb_true_iff, !Z.eqb_eq. unfold announces_J. tauto.
Qed.

Lemma finish_15099 : forall os J0 g0 Tz0 wp wn wpp wnn wpn Ja Jb Jc a b c,
  in_i64 a = true -> in_i64 b = true -> in_i64 c = true ->
  let p := of_species SP os in let n := of_species SN os in
  let ix := indexing_of KPN p n (WMax (widen E wp) (widen E wn) (widen E wpp) (widen E wnn) (widen E wpn)) J0 g0 Tz0 in
  let r := finish_header_15099 E os J0 g0 Tz0 wp wn wpp wnn wpn (Tri Ja Jb Jc) (Tri a b c) in
  sane ix ->
  (Tz0 = 0%Z -> announces ix a b c -> announces_J ix Ja Jb Jc -> r = Ok ix)
  /\ (Tz0 <> 0%Z -> r = Exit)
  /\ (Tz0 = 0%Z -> ~ (announces ix a b c /\ announces_J ix Ja Jb Jc) -> r = AssertFail).
Proof.
  intros os J0 g0 Tz0 wp wn wpp wnn wpn Ja Jb Jc a b c Ha Hb Hc p n ix r Hs.
  unfold r, finish_header_15099. rewrite select_p_of, select_n_of. fold p n.
  change (mk_sectors E _ J0 g0 Tz0) with (ix_sectors E ix). change (mk_space E KPN p n _) with (ix_space E ix).
  cbn [t_pp t_nn t_pn].
  pose proof (J_check ix Ja Jb Jc) as HJ.
  split; [|split].
  - intros -> A B. cbn [Z.eqb check bind]. rewrite (announces_match _ _ _ _ Hs A). cbn [cassert bind].
    apply HJ in B. rewrite B. reflexivity.
  - intros Hn. destruct (Z.eqb_spec Tz0 0); [contradiction|reflexivity].
  - intros -> A. cbn [Z.eqb check bind]. destruct (sizes_match _ _) eqn:Hm; [|reflexivity]. cbn [cassert bind].
    apply sizes_match_announces in Hm; auto.
    match goal with |- context [cassert ?b] => destruct b eqn:Hj end; [|reflexivity].
    exfalso. apply A. split; [assumption|]. apply HJ. reflexivity.
Qed.

Lemma repeat_ok : forall sp n, Forall (fun t => t = 1 \/ t = -1)%Z (repeat (match sp with SP => 1 | SN => -1 end)%Z n).
Proof. intros sp n. apply Forall_forall. intros x Hx. apply repeat_spec in Hx. subst x. destruct sp; auto. Qed.

Lemma reader_species : forall sp ns ls js ws pre rest, same_length (length ns) [ls; js; ws] ->
  words32 (ns ++ ls ++ js) -> floats32 ws ->
  let bytes := flat_map (fun r => fortran_record (ints r)) [ns; ls; js; ws] in
  rd_species_bin_15099 E sp (length ns) (bat pre (bytes ++ rest))
  = Ok (orbitals_of ns ls js (repeat (match sp with SP => 1 | SN => -1 end)%Z (length ns)) ws, bat (pre ++ bytes) rest).
Proof.
  intros sp ns ls js ws pre rest Hlen H32 Hws bytes.
  inversion Hlen as [|? ? L1 Hlen1]; subst. inversion Hlen1 as [|? ? L2 Hlen2]; subst. inversion Hlen2 as [|? ? L3 _]; subst.
  unfold words32 in H32. rewrite !Forall_app in H32. destruct H32 as (Hns & Hls & Hjs).
  unfold bytes, rd_species_bin_15099. cbn [flat_map]. rewrite app_nil_r, <- !rec_doc, <- !app_assoc.
  rewrite rd_record_i32_bat by reflexivity. cbn [bind]. rewrite rd_record_i32_bat by congruence. cbn [bind].
  rewrite rd_record_i32_bat by congruence. cbn [bind]. rewrite rd_record_f32_bat by (assumption || congruence). cbn [bind].
  rewrite !map_i32_words by assumption.
  destruct (zip_ok ns ls js (repeat (match sp with SP => 1 | SN => -1 end)%Z (length ns)) ws) as [(_ & Hz)|(Hn & _)];
    rewrite ?repeat_length; auto; [|exfalso; apply Hn, repeat_ok].
  rewrite Hz. cbn [bind]. rewrite <- !app_assoc. reflexivity.
Qed.

Lemma reader_bin_15099 : forall pn pl pj pw nn_ nl nj nw J0 g0 Tz0 wp wn wpp wnn wpn Ja Jb Jc a b c rest,
  same_length (length pn) [pl; pj; pw] -> same_length (length nn_) [nl; nj; nw] ->
  words32 ([Z.of_nat (length pn); Z.of_nat (length nn_); J0; g0; Tz0; Ja; Jb; Jc; a; b; c] ++ pn ++ pl ++ pj ++ nn_ ++ nl ++ nj) ->
  floats32 ([wp; wn; wpp; wnn; wpn] ++ pw ++ nw) ->
  let data := doc_15099 (Z.of_nat (length pn)) (Z.of_nat (length nn_)) pn pl pj pw nn_ nl nj nw
                [J0; g0; Tz0] [wp; wn] [wpp; wnn; wpn] [Ja; Jb; Jc] [a; b; c] ++ rest in
  let os := orbitals_of pn pl pj (repeat 1%Z (length pn)) pw ++ orbitals_of nn_ nl nj (repeat (-1)%Z (length nn_)) nw in
  let ix := indexing_of KPN (of_species SP os) (of_species SN os)
              (WMax (widen E wp) (widen E wn) (widen E wpp) (widen E wnn) (widen E wpn)) J0 g0 Tz0 in
  sane ix ->
  (Tz0 = 0%Z -> announces ix a b c -> announces_J ix Ja Jb Jc ->
     exists st, open_bin E data = Ok st /\ is_fmt E bstate st = V15099 /\ is_ix E bstate st = ix)
  /\ (Tz0 <> 0%Z -> open_bin E data = Exit)
  /\ (Tz0 = 0%Z -> ~ (announces ix a b c /\ announces_J ix Ja Jb Jc) -> open_bin E data = AssertFail).
Proof.
  intros pn pl pj pw nn_ nl nj nw J0 g0 Tz0 wp wn wpp wnn wpn Ja Jb Jc a b c rest Lp Ln H32 Hf data os ix Hsane.
  unfold words32 in H32. rewrite !Forall_app in H32. destruct H32 as (H11 & Hpn & Hpl & Hpj & Hnn & Hnl & Hnj).
  unfold floats32 in Hf. rewrite !Forall_app in Hf. destruct Hf as (Hf & Hpw & Hnw).
  repeat (match goal with H : Forall _ (_ :: _) |- _ => inversion H; subst; clear H end).
  set (body := fortran_record (ints [Z.of_nat (length pn); Z.of_nat (length nn_)])
     ++ flat_map (fun r => fortran_record (ints r)) [pn; pl; pj; pw] ++ flat_map (fun r => fortran_record (ints r)) [nn_; nl; nj; nw]
     ++ wr_record [J0; g0; Tz0] ++ wr_record [wp; wn] ++ wr_record [wpp; wnn; wpn] ++ wr_record [Ja; Jb; Jc] ++ wr_record [a; b; c] ++ rest).
  assert (Hd : data = fortran_record (ints [format_code V15099]) ++ body).
  { unfold data, doc_15099, body. rewrite !rec_doc. cbn [flat_map format_code]. rewrite !app_nil_r, <- !app_assoc. reflexivity. }
  set (pre := fortran_record (ints [format_code V15099])) in *.
  assert (Hh : exists pre', rd_header_bin_15099 E (bat pre body)
    = bind (finish_header_15099 E os J0 g0 Tz0 wp wn wpp wnn wpn (Tri Ja Jb Jc) (Tri a b c)) (fun ix => Ok (ix, bat pre' rest))).
  { pose proof (fun pre rest => reader_species SP pn pl pj pw pre rest Lp) as RP. pose proof (fun pre rest => reader_species SN nn_ nl nj nw pre rest Ln) as RN.
    cbv zeta in RP, RN. unfold body. clear Hd. clearbody pre. clear body.
    generalize dependent (flat_map (fun r => fortran_record (ints r)) [pn; pl; pj; pw]). intros BP RP.
    generalize dependent (flat_map (fun r => fortran_record (ints r)) [nn_; nl; nj; nw]). intros BN RN.
    eexists. unfold rd_header_bin_15099. rewrite <- rec_doc.
    rewrite verify_rec by reflexivity. cbn [bind flat_map]. rewrite <- !app_assoc. cbn [app].
    rewrite rd_i32_bat. cbn [bind]. rewrite rd_i32_bat. cbn [bind]. rewrite verify_bat by reflexivity. cbn [bind].
    rewrite !(i32_id (Z.of_nat _)) by assumption. unfold count_of.
    destruct (Z.ltb_spec (Z.of_nat (length pn)) 0) as [Hl|_]; [lia|]. destruct (Z.ltb_spec (Z.of_nat (length nn_)) 0) as [Hl|_]; [lia|].
    cbn [bind]. rewrite !Nat2Z.id.
    rewrite RP by (try assumption; unfold words32; rewrite !Forall_app; auto). cbn [bind].
    rewrite RN by (try assumption; unfold words32; rewrite !Forall_app; auto). cbn [bind].
    do 5 (rewrite verify_rec by reflexivity; cbn [bind flat_map]; rewrite <- !app_assoc; cbn [app];
      repeat (first [rewrite rd_i32_bat | rewrite rd_f32_bat by assumption]; cbn [bind]);
      rewrite verify_bat by reflexivity; cbn [bind]).
    rewrite !i32_id by assumption. reflexivity. }
  destruct Hh as (pre' & Hh).
  destruct (finish_15099 os J0 g0 Tz0 wp wn wpp wnn wpn Ja Jb Jc a b c) as (F1 & F2 & F3); auto using i32_i64.
  fold ix in F1, F2, F3.
  split; [|split].
  - intros HT Ha HJ. rewrite Hd. eapply (open_bin_finish V15099 body (Ok ix) ix pre' rest); [|reflexivity].
    fold pre. rewrite Hh, F1 by assumption. reflexivity.
  - intros HT. rewrite Hd. unfold pre. rewrite open_bin_rest. fold pre. rewrite Hh, F2 by assumption. reflexivity.
  - intros HT Hn. rewrite Hd. unfold pre. rewrite open_bin_rest. fold pre. rewrite Hh, F3 by assumption. reflexivity.
Qed.

(** version 0: always two species; the numbers of like and unlike elements must agree (the
    number of nn elements is not announced) *)
Lemma finish_v0 : forall types N1 N2 like unlike, in_i64 like = true -> in_i64 unlike = true ->
  let ix := indexing_of KPN (fst (osc_orbitals E N1)) (snd (osc_orbitals E N1)) (osc_wmax E N1 N2) 0 0 0 in
  let r := finish_header_0 E types N1 N2 like unlike in
  sane ix ->
  let good := types = 2%Z /\ Z.of_nat (total_held PP (ix_sectors E ix)) = like /\ Z.of_nat (total_held PN (ix_sectors E ix)) = unlike in
  (good -> r = Ok ix) /\ (~ good -> r = AssertFail).
Proof.
  intros types N1 N2 like unlike Hl Hu ix r (Hc & Hs) good. unfold r, finish_header_0.
  destruct (osc_orbitals E N1) as [p n] eqn:Ho. cbn [fst snd] in ix.
  change (mk_sectors E _ 0 0 0) with (ix_sectors E ix). destruct (sizes_get _ Hc) as (S1 & S2 & S3). rewrite S1, S3.
  split.
  - intros (-> & <- & <-). rewrite !u64_id by (pose proof (Hs PP); pose proof (Hs PN); unfold two63, two64 in *; lia).
    rewrite !Z.eqb_refl. reflexivity.
  - intros Hn. destruct (Z.eqb_spec types 2) as [->|]; [|reflexivity]. cbn [cassert bind].
    destruct (u64 like =? _)%Z eqn:H1; [|reflexivity]. cbn [cassert bind].
    destruct (u64 unlike =? _)%Z eqn:H2; [|reflexivity].
    exfalso. apply Hn. split; [reflexivity|]. split; apply u64_eq; auto.
Qed.

Lemma reader_bin_0 : forall types N1 N2 like unlike rest, words32 [types; N1; N2; like; unlike] ->
  let data := doc_0 types N1 N2 like unlike ++ rest in
  let ix := indexing_of KPN (fst (osc_orbitals E N1)) (snd (osc_orbitals E N1)) (osc_wmax E N1 N2) 0 0 0 in
  sane ix ->
  let good := types = 2%Z /\ Z.of_nat (total_held PP (ix_sectors E ix)) = like /\ Z.of_nat (total_held PN (ix_sectors E ix)) = unlike in
  (good -> exists st, open_bin E data = Ok st /\ is_fmt E bstate st = V0 /\ is_ix E bstate st = ix)
  /\ (~ good -> open_bin E data = AssertFail).
Proof.
  intros types N1 N2 like unlike rest H32 data ix Hsane good.
  repeat (match goal with H : words32 (_ :: _) |- _ => unfold words32 in H | H : Forall _ (_ :: _) |- _ => inversion H; subst; clear H end).
  set (body := wr_record [types; N1; N2; like; unlike] ++ rest).
  assert (Hd : data = fortran_record (ints [format_code V0]) ++ body).
  { unfold data, doc_0, body. rewrite rec_doc, <- app_assoc. reflexivity. }
  set (pre := fortran_record (ints [format_code V0])) in *.
  assert (Hh : exists pre', rd_header_bin_0 E (bat pre body)
    = bind (finish_header_0 E types N1 N2 like unlike) (fun ix => Ok (ix, bat pre' rest))).
  { eexists. unfold rd_header_bin_0, body. rewrite verify_rec by reflexivity; cbn [bind flat_map]; rewrite <- !app_assoc; cbn [app].
    repeat (rewrite rd_i32_bat; cbn [bind]). rewrite verify_bat by reflexivity; cbn [bind].
    rewrite !i32_id by assumption. reflexivity. }
  destruct Hh as (pre' & Hh).
  destruct (finish_v0 types N1 N2 like unlike) as (F1 & F2); auto using i32_i64. fold ix in F1, F2. fold good in F1, F2.
  split.
  - intros Hg. rewrite Hd. eapply (open_bin_finish V0 body (Ok ix) ix pre' rest); [|reflexivity].
    fold pre. rewrite Hh, F1 by assumption. reflexivity.
  - intros Hg. rewrite Hd. unfold pre. rewrite open_bin_rest. fold pre. rewrite Hh, F2 by assumption. reflexivity.
Qed.

(** ** text *)
Lemma open_txt_rest : forall f body,
  open_txt E (TFile E (wints [format_code f] :: body) true)
  = bind (match f with
          | V0 => rd_header_txt_0 E (tat E [wints [format_code f]] body)
          | V15099 => rd_header_txt_15099 E (tat E [wints [format_code f]] body)
          | V15200 => rd_header_txt_15200 E (tat E [wints [format_code f]] body)
          end)
     (fun p => let '(ix, s) := p in let (q, s) := t_tell E s in Ok (InStr E (tstate E) f ix (InSt (tstate E) 0 [q] s))).
Proof.
  intros f body. unfold open_txt.
  change (TSt E (TFile E (wints [format_code f] :: body) true) 0 false false) with (tat E [] (wints [format_code f] :: body)).
  rewrite t_getline_tat. cbn [app]. unfold wints. cbn [map]. rewrite scan_int_i32 by (destruct f; reflexivity). cbn [bind].
  cbn [t_fail tat negb check bind].
  replace (format_of_code (format_code f)) with (Ok f) by (destruct f; reflexivity). cbn [bind]. reflexivity.
Qed.

Lemma open_txt_finish : forall f body h ix pre rest,
  (match f with
          | V0 => rd_header_txt_0 E (tat E [wints [format_code f]] body)
          | V15099 => rd_header_txt_15099 E (tat E [wints [format_code f]] body)
          | V15200 => rd_header_txt_15200 E (tat E [wints [format_code f]] body)
          end) = bind h (fun ix : indexing E => Ok (ix, tat E pre rest)) ->
  h = Ok ix ->
  exists st, open_txt E (TFile E (wints [format_code f] :: body) true) = Ok st /\ is_fmt E (tstate E) st = f /\ is_ix E (tstate E) st = ix.
Proof.
  intros f body h ix pre rest H Hh. rewrite open_txt_rest, H, Hh. cbn [bind]. unfold t_tell, tat. cbn [t_fail t_eof orb t_pos].
  eexists. split; [reflexivity|]. split; reflexivity.
Qed.

(** [w] scans as the float [x] *)
Definition reads_as (w : word (txt E)) (x : Z) : Prop := scan_f E w = Some x.

Lemma rd_orbs : forall f np nn orbs os pre rest, (np + nn = Z.of_nat (length orbs))%Z -> (0 <= np)%Z -> (0 <= nn)%Z ->
  (Z.of_nat (length orbs) < two64)%Z -> Forall (fun l => l <> []) orbs -> parse_orbs E f orbs = Ok os ->
  rd_orbitals_txt E f (tat E pre (wints [np; nn] :: orbs ++ rest)) = Ok (os, tat E ((pre ++ [wints [np; nn]]) ++ orbs) rest).
Proof.
  intros f np nn orbs os pre rest Hn H0 H1 H2 Hb Hp. unfold rd_orbitals_txt.
  rewrite t_GetLine_tat by discriminate. unfold wints. cbn [map scan_size].
  assert (Hu : forall z, (0 <= z <= np + nn)%Z -> in_u64 z = true) by (intros z Hz; apply in_u64_iff; lia).
  rewrite (Hu np) by lia. cbn [bind scan_size]. rewrite (Hu nn) by lia. cbn [bind].
  rewrite u64_id, Hn, Nat2Z.id by lia. rewrite get_lines_tat by assumption. rewrite Hp. reflexivity.
Qed.

Lemma reader_txt_15200 : forall np nn orbs os J0 g0 Tz0 t1 t2 t3 wpp wpn wnn spp spn snn rest,
  (np + nn = Z.of_nat (length orbs))%Z -> (0 <= np)%Z -> (0 <= nn)%Z -> (Z.of_nat (length orbs) < two64)%Z ->
  Forall (fun l => l <> []) orbs -> parse_orbs E V15200 orbs = Ok os ->
  words32 [J0; g0; Tz0] -> reads_as t1 wpp -> reads_as t2 wpn -> reads_as t3 wnn ->
  Forall (fun z => in_i64 z = true) [spp; spn; snn] ->
  let file := TFile E (doc_txt_15200 np nn orbs [J0; g0; Tz0] [t1; t2; t3] [spp; spn; snn] ++ rest) true in
  let p := of_species SP os in let n := of_species SN os in
  let w := WMax (widen E (narrow E (weight_max_of E p))) (widen E (narrow E (weight_max_of E n)))
             (widen E wpp) (widen E wnn) (widen E wpn) in
  let ix := indexing_of KTz p n w J0 g0 Tz0 in
  sane ix ->
  (announces ix spp snn spn ->
     exists st, open_txt E file = Ok st /\ is_fmt E (tstate E) st = V15200 /\ is_ix E (tstate E) st = ix)
  /\ (~ announces ix spp snn spn -> open_txt E file = AssertFail).
Proof.
  intros np nn orbs os J0 g0 Tz0 t1 t2 t3 wpp wpn wnn spp spn snn rest Hn H0 H1 H2 Hb Hp H32 T1 T2 T3 H64 file p n w ix Hsane.
  unfold words32 in H32.
  repeat (match goal with H : Forall _ (_ :: _ :: _) |- _ => inversion H; subst; clear H | H : Forall _ [_] |- _ => inversion H; subst; clear H end).
  set (body := wints [np; nn] :: orbs ++ wints [J0; g0; Tz0] :: [t1; t2; t3] :: wints [spp; spn; snn] :: rest).
  assert (Hd : file = TFile E (wints [format_code V15200] :: body) true).
  { unfold file, doc_txt_15200, body. cbn [app format_code]. rewrite <- app_assoc. reflexivity. }
  assert (Hh : exists pre', rd_header_txt_15200 E (tat E [wints [format_code V15200]] body)
    = bind (finish_header_15200 E os J0 g0 Tz0 wpp wpn wnn (Tri spp snn spn)) (fun ix => Ok (ix, tat E pre' rest))).
  { eexists. unfold rd_header_txt_15200, body. rewrite (rd_orbs V15200 np nn orbs os) by assumption. cbn [bind].
    rewrite t_GetLine_tat by discriminate. unfold wints. cbn [map]. do 3 (rewrite scan_int_i32 by assumption; cbn [bind]).
    rewrite t_GetLine_tat by discriminate.
    rewrite (scan_float_some _ _ _ _ T1); cbn [bind]. rewrite (scan_float_some _ _ _ _ T2); cbn [bind]. rewrite (scan_float_some _ _ _ _ T3); cbn [bind].
    rewrite t_GetLine_tat by discriminate. unfold scan_long.
    do 3 (match goal with H : in_i64 ?x = true |- context [if in_i64 ?x then _ else _] => rewrite H end; cbn [bind]). reflexivity. }
  destruct Hh as (pre' & Hh).
  assert (Hfin : finish_header_15200 E os J0 g0 Tz0 wpp wpn wnn (Tri spp snn spn)
     = (if sizes_match (Tri spp snn spn) (evaluate_sizes (ix_sectors E ix)) then Ok ix else AssertFail)).
  { unfold finish_header_15200. rewrite select_p_of, select_n_of. fold p n.
    change (mk_sectors E (mk_space E KTz p n w) J0 g0 Tz0) with (ix_sectors E ix). destruct (sizes_match _ _); reflexivity. }
  split.
  - intros Ha. rewrite (announces_match _ _ _ _ Hsane Ha) in Hfin. rewrite Hd.
    eapply (open_txt_finish V15200 body (Ok ix) ix pre' rest); [|reflexivity]. rewrite Hh, Hfin. reflexivity.
  - intros Ha. rewrite Hd, open_txt_rest, Hh, Hfin. destruct (sizes_match _ _) eqn:Hm; [|reflexivity].
    exfalso. apply Ha. apply sizes_match_announces; assumption.
Qed.

Lemma reader_txt_15099 : forall np nn orbs os J0 g0 Tz0 t1 t2 t3 t4 t5 wp wn wpp wnn wpn Ja Jb Jc a b c rest,
  (np + nn = Z.of_nat (length orbs))%Z -> (0 <= np)%Z -> (0 <= nn)%Z -> (Z.of_nat (length orbs) < two64)%Z ->
  Forall (fun l => l <> []) orbs -> parse_orbs E V15099 orbs = Ok os ->
  words32 [J0; g0; Tz0; Ja; Jb; Jc; a; b; c] ->
  reads_as t1 wp -> reads_as t2 wn -> reads_as t3 wpp -> reads_as t4 wnn -> reads_as t5 wpn ->
  let file := TFile E (doc_txt_15099 np nn orbs [J0; g0; Tz0] [t1; t2] [t3; t4; t5] [Ja; Jb; Jc] [a; b; c] ++ rest) true in
  let ix := indexing_of KPN (of_species SP os) (of_species SN os)
              (WMax (widen E wp) (widen E wn) (widen E wpp) (widen E wnn) (widen E wpn)) J0 g0 Tz0 in
  sane ix ->
  (Tz0 = 0%Z -> announces ix a b c -> announces_J ix Ja Jb Jc ->
     exists st, open_txt E file = Ok st /\ is_fmt E (tstate E) st = V15099 /\ is_ix E (tstate E) st = ix)
  /\ (Tz0 <> 0%Z -> open_txt E file = Exit)
  /\ (Tz0 = 0%Z -> ~ (announces ix a b c /\ announces_J ix Ja Jb Jc) -> open_txt E file = AssertFail).
Proof.
  intros np nn orbs os J0 g0 Tz0 t1 t2 t3 t4 t5 wp wn wpp wnn wpn Ja Jb Jc a b c rest Hn H0 H1 H2 Hb Hp H32 T1 T2 T3 T4 T5 file ix Hsane.
  unfold words32 in H32.
  repeat (match goal with H : Forall _ (_ :: _ :: _) |- _ => inversion H; subst; clear H | H : Forall _ [_] |- _ => inversion H; subst; clear H end).
  set (body := wints [np; nn] :: orbs ++ wints [J0; g0; Tz0] :: [t1; t2] :: [t3; t4; t5] :: wints [Ja; Jb; Jc] :: wints [a; b; c] :: rest).
  assert (Hd : file = TFile E (wints [format_code V15099] :: body) true).
  { unfold file, doc_txt_15099, body. cbn [app format_code]. rewrite <- app_assoc. reflexivity. }
  assert (Hh : exists pre', rd_header_txt_15099 E (tat E [wints [format_code V15099]] body)
    = bind (finish_header_15099 E os J0 g0 Tz0 wp wn wpp wnn wpn (Tri Ja Jb Jc) (Tri a b c)) (fun ix => Ok (ix, tat E pre' rest))).
  { eexists. unfold rd_header_txt_15099, body. rewrite (rd_orbs V15099 np nn orbs os) by assumption. cbn [bind].
    rewrite t_GetLine_tat by discriminate. unfold wints. cbn [map]. do 3 (rewrite scan_int_i32 by assumption; cbn [bind]).
    rewrite t_GetLine_tat by discriminate.
    rewrite (scan_float_some _ _ _ _ T1); cbn [bind]. rewrite (scan_float_some _ _ _ _ T2); cbn [bind].
    rewrite t_GetLine_tat by discriminate. rewrite (scan_float_some _ _ _ _ T3); cbn [bind].
    rewrite (scan_float_some _ _ _ _ T4); cbn [bind]. rewrite (scan_float_some _ _ _ _ T5); cbn [bind].
    rewrite t_GetLine_tat by discriminate. do 3 (rewrite scan_int_i32 by assumption; cbn [bind]).
    rewrite t_GetLine_tat by discriminate. do 3 (rewrite scan_int_i32 by assumption; cbn [bind]). reflexivity. }
  destruct Hh as (pre' & Hh).
  destruct (finish_15099 os J0 g0 Tz0 wp wn wpp wnn wpn Ja Jb Jc a b c) as (F1 & F2 & F3); auto using i32_i64.
  fold ix in F1, F2, F3.
  split; [|split].
  - intros HT Ha HJ. rewrite Hd. eapply (open_txt_finish V15099 body (Ok ix) ix pre' rest); [|reflexivity].
    rewrite Hh, F1 by assumption. reflexivity.
  - intros HT. rewrite Hd, open_txt_rest, Hh, F2 by assumption. reflexivity.
  - intros HT Hx. rewrite Hd, open_txt_rest, Hh, F3 by assumption. reflexivity.
Qed.

Lemma reader_txt_0 : forall types N1 N2 like unlike rest, words32 [types; N1; N2; like; unlike] ->
  let file := TFile E (doc_txt_0 types N1 N2 like unlike ++ rest) true in
  let ix := indexing_of KPN (fst (osc_orbitals E N1)) (snd (osc_orbitals E N1)) (osc_wmax E N1 N2) 0 0 0 in
  sane ix ->
  let good := types = 2%Z /\ Z.of_nat (total_held PP (ix_sectors E ix)) = like /\ Z.of_nat (total_held PN (ix_sectors E ix)) = unlike in
  (good -> exists st, open_txt E file = Ok st /\ is_fmt E (tstate E) st = V0 /\ is_ix E (tstate E) st = ix)
  /\ (~ good -> open_txt E file = AssertFail).
Proof.
  intros types N1 N2 like unlike rest H32 file ix Hsane good. unfold words32 in H32.
  repeat (match goal with H : Forall _ (_ :: _ :: _) |- _ => inversion H; subst; clear H | H : Forall _ [_] |- _ => inversion H; subst; clear H end).
  set (body := wints [types] :: wints [N1] :: wints [N2] :: wints [like; unlike] :: rest).
  assert (Hd : file = TFile E (wints [format_code V0] :: body) true) by reflexivity.
  assert (Hh : exists pre', rd_header_txt_0 E (tat E [wints [format_code V0]] body)
    = bind (finish_header_0 E types N1 N2 like unlike) (fun ix => Ok (ix, tat E pre' rest))).
  { eexists. unfold rd_header_txt_0, body. unfold wints. cbn [map].
    do 4 (rewrite t_GetLine_tat by discriminate; rewrite scan_int_i32 by assumption; cbn [bind]).
    rewrite scan_int_i32 by assumption. cbn [bind]. reflexivity. }
  destruct Hh as (pre' & Hh).
  destruct (finish_v0 types N1 N2 like unlike) as (F1 & F2); auto using i32_i64. fold ix in F1, F2. fold good in F1, F2.
  split.
  - intros Hg. rewrite Hd. eapply (open_txt_finish V0 body (Ok ix) ix pre' rest); [|reflexivity]. rewrite Hh, F1 by assumption. reflexivity.
  - intros Hg. rewrite Hd, open_txt_rest, Hh, F2 by assumption. reflexivity.
Qed.

(** the binary header shown in h2v0-format-description-130614.txt (a record of 28 bytes) *)
Lemma v0_example_refused : forall rest,
  open_bin E (fortran_record (ints [0]) ++ fortran_record (ints [2; 0; 0; 3; 4; 381; 1456]) ++ rest)%Z = Exit.
Proof.
  intros rest. change (ints [0%Z]) with (ints [format_code V0]). rewrite open_bin_rest. unfold rd_header_bin_0, verify.
  rewrite <- (rec_doc [2; 0; 0; 3; 4; 381; 1456]%Z). unfold wr_record. rewrite <- !app_assoc, rd_i32_bat. reflexivity.
Qed.

(** * Assertions on sector indices *)
Lemma sector_range_bin : forall st i h, length (ix_sectors E (is_ix E bstate st)) <= i -> reads_bin E st (i :: h) = AssertFail.
Proof.
  intros st i h Hi. unfold reads_bin. cbn [read_history]. unfold read_sector, seek_to_sector.
  destruct (Nat.ltb_spec i (length (ix_sectors E (is_ix E bstate st)))); [lia|]. reflexivity.
Qed.
Lemma sector_range_txt : forall st i h, length (ix_sectors E (is_ix E (tstate E) st)) <= i -> reads_txt E st (i :: h) = AssertFail.
Proof.
  intros st i h Hi. unfold reads_txt. cbn [read_history]. unfold read_sector, seek_to_sector.
  destruct (Nat.ltb_spec i (length (ix_sectors E (is_ix E (tstate E) st)))); [lia|]. reflexivity.
Qed.

(** mode kMatrix: writes are accepted exactly when they come in order and fit their sectors
    (diagonal sectors in version 0) *)
Lemma matrix_writes_order : forall f ix h n, matrix_writes E f ix h n = Ok tt ->
  map (fun w => fst (fst w)) h = seq n (length h) /\ n + length h <= Nat.max n (length (ix_sectors E ix))
  /\ Forall2 (fun s w => fits_sector E s (snd (fst w), snd w) /\ s_bi s <= s_ki s /\ (f = V0 -> s_bi s = s_ki s))
       (firstn (length h) (skipn n (ix_sectors E ix))) h.
Proof.
  intros f ix. induction h as [|[[si m] c] h IH]; intros n H.
  - split; [reflexivity|]. split; [cbn [length]; lia|]. constructor.
  - cbn [matrix_writes] in H. apply bind_ok in H. destruct H as (n' & H1 & H). unfold matrix_write in H1.
    apply bind_ok in H1. destruct H1 as ([] & Hc & H1). apply bind_ok in H1. destruct H1 as (s & Hs & H1).
    apply bind_ok in H1. destruct H1 as ([] & Hu & H1). apply cassert_ok in Hu. apply bind_ok in H1. destruct H1 as ([] & Hd & H1).
    apply Ok_inj in H1. subst n'. apply get_ok in Hs.
    apply write_checks_inv in Hc. destruct Hc as (s' & Hs' & -> & Hfit). assert (s' = s) by congruence. subst s'.
    destruct (IH _ H) as (I1 & I2 & I3). cbn [map length seq fst]. rewrite Nat.add_1_r in *. split; [f_equal; exact I1|].
    assert (n < length (ix_sectors E ix)) by (apply nth_error_Some; congruence).
    split; [lia|].
    assert (Hsk : skipn n (ix_sectors E ix) = s :: skipn (S n) (ix_sectors E ix)).
    { clear -Hs. revert n Hs. induction (ix_sectors E ix) as [|x l IHl]; intros [|n] Hs; try discriminate Hs.
      - injection Hs as ->. reflexivity.
      - cbn [skipn] in *. apply IHl. exact Hs. }
    rewrite Hsk. cbn [firstn]. constructor; [|exact I3]. cbn [fst snd].
    split; [exact Hfit|]. split; [apply Nat.leb_le; exact Hu|]. intros ->. apply cassert_ok in Hd. apply Nat.eqb_eq. exact Hd.
Qed.

Lemma matrix_order : forall name f ix h r, ends_with ".mat" name -> write_file E name f ix h = Ok r ->
  in_order E ix h /\ ix_ord E ix = (match f with V15200 => KTz | _ => KPN end)
  /\ Forall (fun s => s_bi s <= s_ki s /\ (f = V0 -> s_bi s = s_ki s)) (firstn (length h) (ix_sectors E ix)).
Proof.
  intros name f ix h r Hname H. unfold write_file in H. apply mode_spec in Hname. rewrite Hname in H. cbn [bind] in H.
  apply bind_ok in H. destruct H as ([] & Ho & H). apply cassert_ok in Ho. apply bind_ok in H. destruct H as ([] & Hm & _).
  destruct (matrix_writes_order f ix h 0 Hm) as (H1 & H2 & H3). cbn [skipn] in H3.
  split; [|split].
  - split; [exact H1|]. split; [lia|]. clear -H3. induction H3 as [|a b l1 l2 Hab H3 IH]; constructor; [apply Hab|exact IH].
  - destruct (ix_ord E ix), f; try discriminate; reflexivity.
  - clear -H3. induction H3 as [|a b l1 l2 Hab H3 IH]; constructor; [apply Hab|exact IH].
Qed.

End Layout.
