(** Proofs about PnModel.v. *)
From Coq Require Import List ZArith Reals Bool Lia Lra.
From Verif Require Import Base BaseLemmas RMat OscModel BlockModel BlockProof ObioModel MoshModel JpvModel JpvSpec JpvProof IsoModel IsoSpec IsoProof IsoFinal PnModel PnSpec.
Import ListNotations.
Open Scope Z_scope.
Open Scope outcome_scope.

Definition triple_ok (sp : rspace) (sectors : lsectors) (ms : list (blocks R)) : Prop :=
  length ms = 3%nat /\ Forall (rblocks_ok sp sectors) ms.
Definition part (ms : list (blocks R)) (Tz : Z) : blocks R := nth (Z.to_nat (Tz + 1)) ms [].

Lemma fields_read : forall p l, line_text p l -> read_fields l = Ok p.
Proof.
  intros p l (w & more & -> & Hi & Hw). cbn [forallb] in Hi. rewrite !andb_true_iff in Hi.
  destruct Hi as (H1 & H2 & H3 & H4 & H5 & H6 & H7 & _). unfold read_fields. cbn [app].
  rewrite i32_scan by exact H1. cbn [bind]. rewrite i32_scan by exact H2. cbn [bind]. rewrite i32_scan by exact H3. cbn [bind].
  rewrite i32_scan by exact H4. cbn [bind]. rewrite i32_scan by exact H5. cbn [bind]. rewrite i32_scan by exact H6. cbn [bind].
  rewrite i32_scan by exact H7. cbn [bind]. rewrite (value_scan w (pl_me p)) by exact Hw. cbn [bind]. destruct p; reflexivity.
Qed.

Lemma sub_labels : forall S J L x, 0 <= S -> 0 <= L -> sub_for S J L x ->
  labels_of x = (L, S, J, Z.rem (L + S + 1) 2, Z.rem L 2).
Proof.
  intros S J L x HS HL (H1 & H2 & H3 & H4 & H5). unfold labels_of. rewrite H1, H2, H3, H4, H5.
  rewrite !Z.rem_mod_nonneg by lia. reflexivity.
Qed.

Lemma same_sub : forall sp b b' x x', rspace_ok sp -> antisymmetric sp -> nth_error sp b = Some x -> nth_error sp b' = Some x' ->
  r_L x = r_L x' -> r_S x = r_S x' -> r_J x = r_J x' -> b = b'.
Proof.
  intros sp b b' x x' Hs Ha Hx Hx' HL HS HJ.
  destruct (Ha x (nth_error_In _ _ Hx)) as (_ & _ & _ & T1 & G1). destruct (Ha x' (nth_error_In _ _ Hx')) as (_ & _ & _ & T2 & G2).
  apply (NoDup_nth_error (map labels_of sp)); [exact Hs| |].
  - rewrite map_length. apply nth_error_Some. congruence.
  - rewrite !nth_error_map, Hx, Hx'. cbn. unfold labels_of. rewrite T1, T2, G1, G2, HL, HS, HJ. reflexivity.
Qed.

Lemma about_iff : forall sp p b0 k0 x0 y0 b k x y i j, rspace_ok sp -> antisymmetric sp ->
  nth_error sp b0 = Some x0 -> nth_error sp k0 = Some y0 -> sub_for (pl_S p) (pl_J p) (pl_Lp p) x0 -> sub_for (pl_S p) (pl_J p) (pl_L p) y0 ->
  nth_error sp b = Some x -> nth_error sp k = Some y ->
  about p x i y j = true <-> b = b0 /\ k = k0 /\ Z.of_nat i = pl_np p /\ Z.of_nat j = pl_n p.
Proof.
  intros sp p b0 k0 x0 y0 b k x y i j Hs Ha Hb0 Hk0 (A1 & A2 & A3 & _) (B1 & B2 & B3 & _) Hb Hk.
  unfold about. rewrite !andb_true_iff, !Z.eqb_eq. split.
  - intros (((((((H1 & H2) & H3) & H4) & H5) & H6) & H7) & H8).
    split; [|split; [|split; lia]].
    + apply (same_sub sp b b0 x x0 Hs Ha Hb Hb0); congruence.
    + apply (same_sub sp k k0 y y0 Hs Ha Hk Hk0); congruence.
  - intros (-> & -> & Hi & Hj). rewrite Hb0 in Hb. injection Hb as <-. rewrite Hk0 in Hk. injection Hk as <-.
    repeat split; congruence.
Qed.

Lemma put_z_ok : forall m i j v, 0 <= i < Z.of_nat (rows m) -> 0 <= j < Z.of_nat (cols m) ->
  put_z m i j v = Ok (mset m (Z.to_nat i) (Z.to_nat j) v).
Proof.
  intros m i j v Hi Hj. unfold put_z.
  replace ((0 <=? i) && (0 <=? j)) with true by (symmetry; apply andb_true_iff; rewrite !Z.leb_le; lia).
  cbn [cassert bind]. unfold mat_put.
  replace (Nat.ltb (Z.to_nat i) (rows m) && Nat.ltb (Z.to_nat j) (cols m)) with true
    by (symmetry; apply andb_true_iff; rewrite !Nat.ltb_lt; lia).
  reflexivity.
Qed.

Lemma line_stored : forall sp sectors p ms, rspace_ok sp -> antisymmetric sp -> NoDup sectors -> upper sectors ->
  triple_ok sp sectors ms -> line_ok sp sectors p ->
  exists ms', store_line sp sectors p ms = Ok ms' /\ triple_ok sp sectors ms'
  /\ forall Tz s b k x y i j, -1 <= Tz <= 1 -> nth_error sectors s = Some (b, k) -> nth_error sp b = Some x -> nth_error sp k = Some y ->
     (i < rdim sp b)%nat -> (j < rdim sp k)%nat ->
     entry_of (part ms' Tz) s i j
     = if (pl_Tz p =? Tz) && (about p x i y j || about p y j x i) then pl_me p else entry_of (part ms Tz) s i j.
Proof.
  intros sp sectors p ms Hs Ha Hn Hu [H3 Hall] (Hnp & Hnn & HS & HL & HLp & HTz & b0 & k0 & x0 & y0 & Hb0 & Hk0 & Sx & Sy & Hin).
  unfold store_line.
  rewrite (find_sub_ok sp b0 x0 _ _ _ _ _ Hs Hb0 (sub_labels _ _ _ _ HS HLp Sx)).
  rewrite (find_sub_ok sp k0 y0 _ _ _ _ _ Hs Hk0 (sub_labels _ _ _ _ HS HL Sy)).
  unfold array_index. replace ((0 <=? pl_Tz p + 1) && (pl_Tz p + 1 <? 3)) with true
    by (symmetry; apply andb_true_iff; rewrite Z.leb_le, Z.ltb_lt; lia).
  cbn [get bind]. set (a := Z.to_nat (pl_Tz p + 1)).
  assert (Hal : (a < length ms)%nat) by (unfold a; lia).
  destruct (nth_error ms a) as [matrices|] eqn:Em; [|apply nth_error_None in Em; lia]. cbn [get bind].
  assert (Hmat : rblocks_ok sp sectors matrices) by (rewrite Forall_forall in Hall; apply Hall; eapply nth_error_In; exact Em).
  (* the oriented line *)
  assert (Hor : exists b' k' np' n', (if Nat.ltb k0 b0 then (k0, b0, pl_n p, pl_np p) else (b0, k0, pl_np p, pl_n p)) = (b', k', np', n')
     /\ In (b', k') sectors /\ 0 <= np' /\ 0 <= n'
     /\ forall b k x y i j, (b <= k)%nat -> nth_error sp b = Some x -> nth_error sp k = Some y ->
        (about p x i y j || about p y j x i = true
         <-> b = b' /\ k = k' /\ ((Z.of_nat i = np' /\ Z.of_nat j = n') \/ (b0 = k0 /\ Z.of_nat i = n' /\ Z.of_nat j = np')))).
  { destruct (Nat.ltb_spec k0 b0) as [Hlt | Hge].
    - exists k0, b0, (pl_n p), (pl_np p). split; [reflexivity|]. split.
      { destruct Hin as [Hin | Hin]; [|exact Hin]. apply Hu in Hin. lia. }
      split; [exact Hnn|]. split; [exact Hnp|]. intros b k x y i j Hbk Hx Hy. rewrite orb_true_iff.
      rewrite (about_iff sp p b0 k0 x0 y0 b k x y i j), (about_iff sp p b0 k0 x0 y0 k b y x j i) by assumption. lia.
    - exists b0, k0, (pl_np p), (pl_n p). split; [reflexivity|]. split.
      { destruct Hin as [Hin | Hin]; [exact Hin|]. pose proof (Hu _ _ Hin). assert (b0 = k0) by lia. subst. exact Hin. }
      split; [exact Hnp|]. split; [exact Hnn|]. intros b k x y i j Hbk Hx Hy. rewrite orb_true_iff.
      rewrite (about_iff sp p b0 k0 x0 y0 b k x y i j), (about_iff sp p b0 k0 x0 y0 k b y x j i) by assumption. lia. }
  destruct Hor as (b' & k' & np' & n' & -> & Hin' & Hnp' & Hn' & Hab).
  apply In_nth_error in Hin'. destruct Hin' as [ix Hix].
  rewrite (look_up_ok sectors ix b' k' Hn Hix). cbn [get bind].
  assert (Hpart : forall ms' Tz, -1 <= Tz <= 1 -> length ms' = 3%nat -> exists l, nth_error ms' (Z.to_nat (Tz + 1)) = Some l /\ part ms' Tz = l).
  { intros ms' Tz HT Hl. destruct (nth_error ms' (Z.to_nat (Tz + 1))) as [l|] eqn:E.
    - exists l. split; [reflexivity|]. unfold part. apply nth_error_nth. exact E.
    - apply nth_error_None in E. lia. }
  destruct ((np' <? Z.of_nat (rdim sp b')) && (n' <? Z.of_nat (rdim sp k'))) eqn:Hdim.
  - apply andb_true_iff in Hdim. rewrite !Z.ltb_lt in Hdim. destruct Hdim as [Hd1 Hd2].
    destruct (Forall2_nth _ _ _ _ _ Hmat Hix) as (m & Emx & Rm & Cm). cbn [fst snd] in Rm, Cm. rewrite Emx. cbn [get bind].
    rewrite put_z_ok by (rewrite ?Rm, ?Cm; lia). cbn [bind].
    set (m1 := mset m (Z.to_nat np') (Z.to_nat n') (pl_me p)).
    assert (Hm2 : exists m2, (if Nat.eqb b0 k0 then put_z m1 n' np' (pl_me p) else Ok m1) = Ok m2 /\ rows m2 = rows m /\ cols m2 = cols m
       /\ forall i j, at_ m2 i j = if (Nat.eqb i (Z.to_nat np') && Nat.eqb j (Z.to_nat n')) || (Nat.eqb b0 k0 && (Nat.eqb i (Z.to_nat n') && Nat.eqb j (Z.to_nat np')))
                                   then pl_me p else at_ m i j).
    { destruct (Nat.eqb_spec b0 k0) as [Hbk | Hbk].
      - assert (b' = k').
        { subst k0. rewrite Hb0 in Hk0. injection Hk0 as <-.
          destruct (proj1 (Hab b0 b0 x0 x0 (Z.to_nat (pl_np p)) (Z.to_nat (pl_n p)) (le_n _) Hb0 Hb0)) as (<- & <- & _); [|reflexivity].
          apply orb_true_iff. left. apply (about_iff sp p b0 b0 x0 x0 b0 b0 x0 x0); try assumption. lia. }
        subst k'. assert (rows m = cols m) by congruence.
        rewrite put_z_ok by (cbn [m1 mset rows cols]; rewrite ?Rm, ?Cm; lia). eexists. split; [reflexivity|]. split; [reflexivity|]. split; [reflexivity|].
        intros i j. unfold m1. cbn [mset at_ andb].
        destruct (Nat.eqb i (Z.to_nat n') && Nat.eqb j (Z.to_nat np')); [rewrite orb_true_r; reflexivity|]. rewrite orb_false_r. reflexivity.
      - exists m1. split; [reflexivity|]. split; [reflexivity|]. split; [reflexivity|]. intros i j. cbn [andb]. rewrite orb_false_r. reflexivity. }
    destruct Hm2 as (m2 & -> & R2 & C2 & A2). cbn [bind].
    destruct (store_ok matrices ix m2) as (mt' & Est & Elen & Enth); [apply nth_error_Some; congruence|]. rewrite Est. cbn [bind].
    destruct (store_ok ms a mt') as (ms' & Ems & Elm & Enm); [exact Hal|]. exists ms'. split; [exact Ems|].
    assert (Hmt' : rblocks_ok sp sectors mt').
    { apply Forall2_intro; [rewrite Elen; apply (Forall2_len _ _ _ Hmat)|]. intros q pq w Hp Hw. rewrite Enth in Hw. destruct (Nat.eqb_spec q ix) as [->|].
      - injection Hw as <-. rewrite Hix in Hp. injection Hp as <-. cbn. split; congruence.
      - destruct (Forall2_nth _ _ _ _ _ Hmat Hp) as (w' & Ew' & Hw'). rewrite Ew' in Hw. injection Hw as <-. exact Hw'. }
    split.
    { split; [congruence|]. apply Forall_forall. intros l Hl. apply In_nth_error in Hl. destruct Hl as [q Hq]. rewrite Enm in Hq.
      destruct (Nat.eqb q a); [injection Hq as <-; exact Hmt'|]. rewrite Forall_forall in Hall. apply Hall. eapply nth_error_In. exact Hq. }
    intros Tz s b k x y i j HT Hsec Hx Hy Hi Hj.
    destruct (Hpart ms' Tz HT ltac:(congruence)) as (l' & El' & ->). destruct (Hpart ms Tz HT H3) as (l & El & ->).
    rewrite Enm in El'. assert (Hbk : (b <= k)%nat) by (apply Hu; eapply nth_error_In; exact Hsec).
    destruct (Z.eqb_spec (pl_Tz p) Tz) as [<- | Hne].
    + fold a in El, El'. rewrite Nat.eqb_refl in El'. injection El' as <-. pose proof (eq_trans (eq_sym El) Em) as Q. injection Q as ->.
      cbn [andb]. unfold entry_of. rewrite Enth. destruct (Nat.eqb_spec s ix) as [-> | Hsi].
      * rewrite Hix in Hsec. injection Hsec as <- <-. rewrite Emx, A2.
        destruct (about p x i y j || about p y j x i) eqn:Eab.
        -- apply (Hab _ _ x y i j Hbk Hx Hy) in Eab. destruct Eab as (_ & _ & Hd).
           replace ((Nat.eqb i (Z.to_nat np') && Nat.eqb j (Z.to_nat n')) || (Nat.eqb b0 k0 && (Nat.eqb i (Z.to_nat n') && Nat.eqb j (Z.to_nat np')))) with true; [reflexivity|].
           symmetry. rewrite orb_true_iff, !andb_true_iff, !Nat.eqb_eq. lia.
        -- destruct ((Nat.eqb i (Z.to_nat np') && Nat.eqb j (Z.to_nat n')) || (Nat.eqb b0 k0 && (Nat.eqb i (Z.to_nat n') && Nat.eqb j (Z.to_nat np')))) eqn:E2; [|reflexivity].
           exfalso. rewrite orb_true_iff, !andb_true_iff, !Nat.eqb_eq in E2.
           assert (about p x i y j || about p y j x i = true); [|congruence]. apply (Hab _ _ x y i j Hbk Hx Hy). split; [reflexivity|]. split; [reflexivity|]. lia.
      * destruct (about p x i y j || about p y j x i) eqn:Eab; [|reflexivity]. exfalso. apply Hsi.
        apply (Hab _ _ x y i j Hbk Hx Hy) in Eab. destruct Eab as (-> & -> & _). apply (nodup_nth sectors s ix _ Hn Hsec Hix).
    + cbn [andb]. replace (Nat.eqb (Z.to_nat (Tz + 1)) a) with false in El' by (symmetry; apply Nat.eqb_neq; unfold a; lia).
      rewrite El in El'. injection El' as <-. reflexivity.
  - exists ms. split; [reflexivity|]. split; [split; assumption|]. intros Tz s b k x y i j HT Hsec Hx Hy Hi Hj.
    assert (Hbk : (b <= k)%nat) by (apply Hu; eapply nth_error_In; exact Hsec).
    destruct (about p x i y j || about p y j x i) eqn:Eab; [|rewrite andb_false_r; reflexivity]. exfalso.
    apply (Hab _ _ x y i j Hbk Hx Hy) in Eab. destruct Eab as (-> & -> & Hd).
    apply andb_false_iff in Hdim. rewrite !Z.ltb_ge in Hdim.
    destruct Hd as [Hd | (Hd0 & Hd)]; [lia|].
    assert (b' = k').
    { subst k0. rewrite Hb0 in Hk0. injection Hk0 as <-.
      destruct (proj1 (Hab b0 b0 x0 x0 (Z.to_nat (pl_np p)) (Z.to_nat (pl_n p)) (le_n _) Hb0 Hb0)) as (<- & <- & _); [|reflexivity].
      apply orb_true_iff. left. apply (about_iff sp p b0 b0 x0 x0 b0 b0 x0 x0); try assumption. lia. }
    subst k'. lia.
Qed.

Lemma file_stored : forall sp sectors ps lines, rspace_ok sp -> antisymmetric sp -> NoDup sectors -> upper sectors ->
  Forall2 (fun p l => line_text p l /\ line_ok sp sectors p) ps lines -> forall ms, triple_ok sp sectors ms ->
  exists ms', read_pn sp sectors lines ms = Ok ms' /\ triple_ok sp sectors ms'
  /\ forall Tz s b k x y i j, -1 <= Tz <= 1 -> nth_error sectors s = Some (b, k) -> nth_error sp b = Some x -> nth_error sp k = Some y ->
     (i < rdim sp b)%nat -> (j < rdim sp k)%nat ->
     entry_of (part ms' Tz) s i j = told ps Tz x i y j (entry_of (part ms Tz) s i j).
Proof.
  intros sp sectors ps lines Hs Ha Hn Hu H. induction H as [|p l ps lines [Ht Hl] H IH]; intros ms Hms.
  - exists ms. split; [reflexivity|]. split; [exact Hms|]. reflexivity.
  - destruct (line_stored sp sectors p ms Hs Ha Hn Hu Hms Hl) as (m1 & E1 & H1 & A1).
    destruct (IH m1 H1) as (ms' & E & Hms' & A). exists ms'. split.
    + unfold read_pn. cbn [for_each]. rewrite (fields_read p l Ht). cbn [bind]. rewrite E1. cbn [bind]. exact E.
    + split; [exact Hms'|]. intros Tz s b k x y i j HT Hsec Hx Hy Hi Hj.
      rewrite (A Tz s b k x y i j), (A1 Tz s b k x y i j) by assumption. reflexivity.
Qed.

(** * Accumulation *)
Definition species_of (Tz : Z) : nat := if Tz =? -1 then 0%nat else if Tz =? 0 then 2%nat else 1%nat.
Lemma pn_table : forall T0 Tz, In Tz [-1; 0; 1] -> pn_to_t T0 Tz = tz_to_t T0 (species_of Tz).
Proof.
  intros T0 Tz [<- | [<- | [<- | []]]]; unfold pn_to_t, tz_to_t, species_of; cbn [Z.eqb Pos.eqb]; destruct T0 as [|[|T0]]; reflexivity.
Qed.
Lemma for_each_ext : forall {A S} (l : list A) (f g : A -> S -> outcome S), (forall a s, In a l -> f a s = g a s) -> forall s, for_each l f s = for_each l g s.
Proof.
  intros A S l f g. induction l as [|a l IH]; intros H s; [reflexivity|]. cbn [for_each]. rewrite (H a s (or_introl eq_refl)).
  destruct (g a s); cbn [bind]; try reflexivity. apply IH. intros b s1 Hb. apply H. right. exact Hb.
Qed.
Lemma pn_sector_as : forall sp s0 input ix Tz c, In Tz [-1; 0; 1] -> pn_sector sp s0 input ix Tz c = accumulate_sector sp (species_of Tz) s0 input ix c.
Proof.
  intros sp s0 input ix Tz c HT. unfold pn_sector, accumulate_sector.
  destruct (nth_error s0 ix) as [x|]; [|reflexivity]. cbn [get bind]. destruct (nth_error input ix) as [m|]; [|reflexivity]. cbn [get bind].
  destruct (nth_error sp (fst x)) as [b|]; [|reflexivity]. cbn [get bind]. destruct (nth_error sp (snd x)) as [k|]; [|reflexivity]. cbn [get bind].
  destruct (negb (r_T b =? r_T k)); [reflexivity|]. destruct (r_T k =? 0).
  - destruct HT as [<- | [<- | [<- | []]]]; reflexivity.
  - destruct (r_T k =? 1); [|reflexivity]. apply for_each_ext. intros T0 c1 _. destruct (nth_error c1 T0) as [[s ms]|]; [|reflexivity]. cbn [get bind].
    destruct (look_up_sector s (fst x) (snd x)); [|reflexivity]. cbn [get bind]. rewrite pn_table by exact HT. reflexivity.
Qed.
Lemma pn_accumulate_adds : forall sp ss s0 inputs, rsectors_ok sp ss -> nth_error ss 0 = Some s0 -> triple_ok sp s0 inputs ->
  cadds sp ss (fun T0 q x y => lsum (seq 0 (length s0)) (fun ix => lsum [-1; 0; 1] (fun Tz => contribution sp ss s0 (species_of Tz) (part inputs Tz) ix T0 q x y)))
    (pn_accumulate sp s0 inputs).
Proof.
  intros sp ss s0 inputs Hss Hs0 [H3 Hall]. unfold pn_accumulate.
  apply cadds_each. intros ix Hix. apply in_seq in Hix. apply cadds_each. intros Tz HT c Hc.
  assert (HTr : -1 <= Tz <= 1) by (destruct HT as [<- | [<- | [<- | []]]]; lia).
  destruct (nth_error inputs (Z.to_nat (Tz + 1))) as [input|] eqn:E; [|apply nth_error_None in E; lia]. cbn [get bind].
  assert (Hp : part inputs Tz = input) by (unfold part; apply nth_error_nth; exact E). rewrite Hp, pn_sector_as by exact HT.
  apply (accumulate_sector_adds sp ss s0 (species_of Tz) input ix Hss Hs0); [|lia|exact Hc].
  rewrite Forall_forall in Hall. apply Hall. eapply nth_error_In. exact E.
Qed.
Lemma pn_accumulate_value : forall sp ss s0 inputs c, rsectors_ok sp ss -> nth_error ss 0 = Some s0 -> triple_ok sp s0 inputs ->
  comps_ok sp ss c -> zero_comps sp ss c -> exists c', pn_accumulate sp s0 inputs c = Ok c' /\ comps_ok sp ss c'
  /\ forall T0 s q ix b k xb xk x y, nth_error ss T0 = Some s -> nth_error s q = Some (b, k) -> nth_error s0 ix = Some (b, k) -> nth_error sp b = Some xb -> nth_error sp k = Some xk ->
     in_sector sp s q x y ->
     cent c' T0 q x y = if negb (r_T xb =? r_T xk) then 0%R else if r_T xk =? 0 then (if Nat.eqb T0 0 then entry_of (part inputs 0) ix x y else 0%R)
       else if r_T xk =? 1 then (tz_to_t T0 0 * entry_of (part inputs (-1)) ix x y + tz_to_t T0 1 * entry_of (part inputs 1) ix x y + tz_to_t T0 2 * entry_of (part inputs 0) ix x y)%R else 0%R.
Proof.
  intros sp ss s0 inputs c Hss Hs0 H Hc Hz. destruct (pn_accumulate_adds sp ss s0 inputs Hss Hs0 H c Hc) as (c' & E & Hc' & Hat).
  exists c'. split; [exact E|]. split; [exact Hc'|]. intros T0 s q ix b k xb xk x y Hs Hq Hix Hb Hk Hin. rewrite (Hat T0 s q x y Hs Hin), (Hz T0 s q x y Hs Hin), Rplus_0_l.
  destruct Hss as (H3' & Hnd & _). assert (Hn0 : NoDup s0) by (rewrite Forall_forall in Hnd; apply Hnd; eapply nth_error_In; exact Hs0).
  assert (Off : forall species input ix', ix' <> ix -> contribution sp ss s0 species input ix' T0 q x y = 0%R).
  { intros species input ix' Hne. unfold contribution. destruct (nth_error s0 ix') as [p|] eqn:Ep; [|reflexivity]. rewrite Hs, Hq. destruct (sector_eqb p (b, k)) eqn:Eq; [|reflexivity].
    apply sector_eqb_ok in Eq. subst p. exfalso. apply Hne. apply (nodup_nth s0 ix' ix (b, k)); assumption. }
  rewrite (lsum_one nat Nat.eq_dec (seq 0 (length s0)) ix).
  - assert (On : forall species input, contribution sp ss s0 species input ix T0 q x y = (weight (r_T xb) (r_T xk) species T0 * entry_of input ix x y)%R).
    { intros species input. unfold contribution. rewrite Hix, Hs, Hq, sector_eqb_refl. unfold rT. cbn [fst snd]. rewrite Hb, Hk. reflexivity. }
    cbn [lsum]. rewrite !On. change (species_of (-1)) with 0%nat. change (species_of 0) with 2%nat. change (species_of 1) with 1%nat. unfold weight.
    destruct (negb (r_T xb =? r_T xk)); [ring|]. destruct (r_T xk =? 0); [cbn [Nat.eqb andb]; destruct (Nat.eqb T0 0); ring|]. destruct (r_T xk =? 1); ring.
  - apply seq_NoDup.
  - apply in_seq. split; [lia|]. cbn. apply nth_error_Some. congruence.
  - intros ix' Hin' Hne. cbn [lsum]. rewrite !Off by exact Hne. ring.
Qed.

Lemma zero_entry : forall sp (s0 : lsectors) s i j, entry_of (map (fun x => mzero 0%R (rdim sp (fst x)) (rdim sp (snd x))) s0) s i j = 0%R.
Proof. intros sp s0 s i j. unfold entry_of. rewrite nth_error_map. destruct (nth_error s0 s); reflexivity. Qed.
Lemma zero_ok : forall sp (s0 : lsectors), rblocks_ok sp s0 (map (fun x => mzero 0%R (rdim sp (fst x)) (rdim sp (snd x))) s0).
Proof. intros sp s0. unfold rblocks_ok. induction s0 as [|x s0 IH]; constructor; [split; reflexivity | exact IH]. Qed.

(** the components after a file *)
Lemma pn_file : forall sp s0 s1 s2 ps lines c, rspace_ok sp -> antisymmetric sp -> upper s0 -> rsectors_ok sp [s0; s1; s2] ->
  Forall2 (fun p l => line_text p l /\ line_ok sp s0 p) ps lines -> comps_ok sp [s0; s1; s2] c -> zero_comps sp [s0; s1; s2] c ->
  exists c', read_pn_pn sp lines c = Ok c' /\ comps_ok sp [s0; s1; s2] c'
  /\ (forall q0 q1 q2 b k xb xk i j, nth_error s0 q0 = Some (b, k) -> nth_error s1 q1 = Some (b, k) -> nth_error s2 q2 = Some (b, k) -> nth_error sp b = Some xb -> nth_error sp k = Some xk ->
       r_T xb = 1 -> r_T xk = 1 -> (i < rdim sp b)%nat -> (j < rdim sp k)%nat -> forall Tz, -1 <= Tz <= 1 ->
       branched (- Tz) (cent c' 0 q0 i j) (cent c' 1 q1 i j) (cent c' 2 q2 i j) = told ps Tz xb i xk j 0%R)
  /\ (forall q0 b k xb xk i j, nth_error s0 q0 = Some (b, k) -> nth_error sp b = Some xb -> nth_error sp k = Some xk ->
       r_T xb = 0 -> r_T xk = 0 -> (i < rdim sp b)%nat -> (j < rdim sp k)%nat -> cent c' 0 q0 i j = told ps 0 xb i xk j 0%R).
Proof.
  intros sp s0 s1 s2 ps lines c Hs Ha Hu Hss Hl Hc Hz.
  assert (Hn0 : NoDup s0) by (destruct Hss as (_ & Hnd & _); inversion Hnd; assumption).
  unfold read_pn_pn. destruct (Forall2_nth _ _ _ 0%nat s0 Hc eq_refl) as ([s' ms0] & Ec & Es & _). cbn [fst] in Es. subst s'. rewrite Ec. cbn [get bind].
  set (zero := map _ s0).
  destruct (file_stored sp s0 ps lines Hs Ha Hn0 Hu Hl [zero; zero; zero]) as (inputs & Er & Hin & Hent).
  { split; [reflexivity|]. repeat constructor; apply zero_ok. }
  rewrite Er. cbn [bind].
  destruct (pn_accumulate_value sp [s0; s1; s2] s0 inputs c Hss eq_refl Hin Hc Hz) as (c' & E & Hc' & A).
  exists c'. split; [exact E|]. split; [exact Hc'|].
  assert (Hpart : forall Tz, -1 <= Tz <= 1 -> part [zero; zero; zero] Tz = zero).
  { intros Tz HT. unfold part. assert (Hk : (Z.to_nat (Tz + 1) < 3)%nat) by lia. destruct (Z.to_nat (Tz + 1)) as [|[|[|n]]]; [reflexivity|reflexivity|reflexivity|lia]. }
  assert (Hval : forall Tz q0 b k xb xk i j, -1 <= Tz <= 1 -> nth_error s0 q0 = Some (b, k) -> nth_error sp b = Some xb -> nth_error sp k = Some xk ->
     (i < rdim sp b)%nat -> (j < rdim sp k)%nat -> entry_of (part inputs Tz) q0 i j = told ps Tz xb i xk j 0%R).
  { intros Tz q0 b k xb xk i j HT Q Hb Hk Hi Hj. rewrite (Hent Tz q0 b k xb xk i j) by assumption. rewrite Hpart by exact HT. unfold zero. rewrite zero_entry. reflexivity. }
  split.
  - intros q0 q1 q2 b k xb xk i j Q0 Q1 Q2 Hb Hk Tb Tk Hi Hj Tz HT.
    assert (I : forall s q, nth_error s q = Some (b, k) -> in_sector sp s q i j) by (intros s q Hq; exists b, k; auto).
    rewrite (A 0%nat s0 q0 q0 b k xb xk i j) by (try assumption; auto). rewrite (A 1%nat s1 q1 q0 b k xb xk i j) by (try assumption; auto).
    rewrite (A 2%nat s2 q2 q0 b k xb xk i j) by (try assumption; auto). rewrite Tb, Tk. cbn [Z.eqb Pos.eqb negb].
    rewrite !(Hval _ q0 b k xb xk i j) by (try assumption; lia).
    assert (Hsp : (species_of Tz < 3)%nat) by (unfold species_of; destruct (Tz =? -1); [lia|]; destruct (Tz =? 0); lia).
    pose proof (tables_inverse (species_of Tz) (told ps (-1) xb i xk j 0) (told ps 1 xb i xk j 0) (told ps 0 xb i xk j 0) Hsp) as T. unfold branched. cbn [lsum] in T.
    change (Z.to_nat 0) with 0%nat in T. change (Z.to_nat 1) with 1%nat in T. change (Z.to_nat 2) with 2%nat in T.
    rewrite <- Rplus_assoc in T. rewrite Rplus_0_r in T.
    assert (HTs : Tz = -1 \/ Tz = 0 \/ Tz = 1) by lia. destruct HTs as [-> | [-> | ->]]; exact T.
  - intros q0 b k xb xk i j Q0 Hb Hk Tb Tk Hi Hj. rewrite (A 0%nat s0 q0 q0 b k xb xk i j); try assumption; try reflexivity; [|exists b, k; auto].
    rewrite Tb, Tk. cbn [Z.eqb negb Nat.eqb]. apply (Hval 0 q0 b k xb xk i j); try assumption. lia.
Qed.
