(** relative-xform and jpv2rel: what is written; programs one after the other. *)
From Coq Require Import String List ZArith Reals Bool Lia Lra.
From Verif Require Import Base BaseLemmas RMat OscModel OscSpec OscFinal BlockModel BlockProof MixModel MixProof MoshModel JpvModel JpvSpec JpvProof IsoModel IsoSpec IsoFinal TrfModel TrfSpec TrfProof RmeModel RmeSpec RmeProof RmeFinal RelxModel RelxSpec RelxProof RgModel MosModel MosSpec MosFile RgnModel RgnSpec RgnInput RgnProof.
Import ListNotations.
Open Scope Z_scope.
Open Scope outcome_scope.

Lemma F2_len : forall {A B} (P : A -> B -> Prop) l l', Forall2 P l l' -> length l = length l'.
Proof. intros A B P l l' H. induction H; cbn; congruence. Qed.
Lemma F2_get : forall {A B} (P : A -> B -> Prop) l l', Forall2 P l l' -> forall n x, nth_error l n = Some x -> exists y, nth_error l' n = Some y /\ P x y.
Proof. intros A B P l l' H. induction H; intros [|n] x' Hx'; cbn in *; try discriminate; [injection Hx' as <-; eauto|eauto]. Qed.
Lemma F2_of : forall {A B} (P : A -> B -> Prop) l l', length l = length l' -> (forall n x y, nth_error l n = Some x -> nth_error l' n = Some y -> P x y) -> Forall2 P l l'.
Proof.
  intros A B P l. induction l as [|a l IH]; intros [|b l'] Hl H; try discriminate; constructor; [apply (H O); reflexivity|]. apply IH; [cbn in Hl; lia|]. intros n x y. apply (H (S n)).
Qed.
Lemma held_stores : forall sp Nmax Jmax o c F, 0 <= o_T0_min o -> o_T0_max o <= 2 -> held sp o c F -> stores_rel (Rel sp Nmax Jmax) o c F.
Proof.
  intros sp Nmax Jmax o c F H0 H2 (_ & H) T0 HT. unfold in_range in HT. destruct (H T0 ltac:(lia)) as (s & ms & Hn & Nd & _ & Hin & Hv). exists s, ms. split; [exact Hn|]. split; [exact Nd|].
  cbn [rel_subs]. intros i k x y Hik Hx Hy Hr. assert (Hi : In (i, k) s). { apply Hin. unfold in_range. split; [lia|]. split; [exact Hik|]. exists x, y. auto. }
  apply In_nth_error in Hi. destruct Hi as (q & Hq). destruct (Hv q i k x y Hq Hx Hy) as (m & Hm & R1 & R2 & A). exists q, m. auto 6.
Qed.
(** * relative-xform *)
Definition triangle_of (F : element) : element := fun T0 x N' y N => if rlab_eqb x y && (N <? N') then F T0 y N x N' else F T0 x N' y N.
Lemma held_sectors : forall sp o c F, 0 <= o_T0_min o -> o_T0_max o <= 2 -> held sp o c F -> forall T0, RelxSpec.rsectors_ok sp (fst (component c T0)) /\ rblocks_ok sp (fst (component c T0)) (snd (component c T0)).
Proof.
  intros sp o c F H0 H2 (L3 & H) T0. unfold component.
  destruct (nth_error c (Z.to_nat T0)) as [[s ms]|] eqn:En.
  - rewrite (nth_error_nth _ _ _ En). cbn [fst snd]. assert (HT : (Z.to_nat T0 < 3)%nat) by (rewrite <- L3; apply nth_error_Some; congruence).
    assert (E : Z.to_nat T0 = Z.to_nat (Z.of_nat (Z.to_nat T0))) by (rewrite Nat2Z.id; reflexivity).
    destruct (H (Z.of_nat (Z.to_nat T0)) ltac:(lia)) as (s' & ms' & Hn & Nd & Hl & Hin & Hv). rewrite <- E, En in Hn. injection Hn as <- <-.
    assert (Hb : forall i k, In (i, k) s -> exists x y, nth_error sp i = Some x /\ nth_error sp k = Some y) by (intros i k Hi; apply Hin in Hi; destruct Hi as (_ & _ & x & y & Hx & Hy & _); eauto).
    split; [split; [exact Nd|]|].
    + intros [i k] Hi. destruct (Hb i k Hi) as (x & y & Hx & Hy). cbn. split; [apply nth_error_Some; congruence|apply nth_error_Some; congruence].
    + apply F2_of; [symmetry; exact Hl|]. intros n [i k] m Hn Hm. destruct (Hb i k (nth_error_In _ _ Hn)) as (x & y & Hx & Hy). destruct (Hv n i k x y Hn Hx Hy) as (m' & Hm' & R1 & R2 & _).
      rewrite Hm in Hm'. injection Hm' as <-. cbn [fst snd]. rewrite (rdim_at _ _ _ Hx), (rdim_at _ _ _ Hy). auto.
  - rewrite nth_overflow by (apply nth_error_None; exact En). cbn. split; [split; [constructor|intros ? []]|constructor].
Qed.
Lemma rl_labels : forall Nmax sp x y, rme_space Nmax sp -> forall Nmax' sp', rme_space Nmax' sp' -> In x sp -> In y sp' -> labels_of x = labels_of y <-> rl x = rl y.
Proof.
  intros Nmax sp x y [Hall _] Nmax' sp' [Hall' _] Hx Hy. destruct (Hall x Hx) as (_ & _ & _ & _ & _ & G1 & _). destruct (Hall' y Hy) as (_ & _ & _ & _ & _ & G2 & _). unfold labels_of, rl. split; [congruence|].
  intros E. injection E as E1 E2 E3 E4. congruence.
Qed.
Lemma radial_dim : forall Nmax sp x, rme_space Nmax sp -> In x sp -> radial_count Nmax (r_L x) = r_dim x.
Proof. intros Nmax sp x [Hall _] Hx. destruct (Hall x Hx) as (_ & _ & _ & _ & _ & _ & D). unfold radial_count. lia. Qed.
Lemma lab_L_rl : forall x, lab_L (rl x) = r_L x.
Proof. reflexivity. Qed.
Section Xform.
Variable overlap : Z -> R -> nat -> nat -> option R.
Variable schedule : nat -> nat -> list (nat * nat).
Variable ratio : R.
Variable O : Z -> nat -> nat -> R.
Hypothesis HO : forall sd td L, exists m, xform_matrix overlap schedule sd td L ratio = Ok m /\ rows m = sd /\ cols m = td
  /\ forall i j, (i < sd)%nat -> (j < td)%nat -> at_ m i j = O L i j.
Lemma element_value : forall Ns Nt Jmax src tgt o c F T0 t t' xb xk a b v, rel_space Ns Jmax src -> rel_space Nt Jmax tgt -> in_order src tgt -> 0 <= o_T0_min o -> o_T0_max o <= 2 ->
  held src o c F -> in_range o T0 -> (t <= t')%nat -> nth_error tgt t = Some xb -> nth_error tgt t' = Some xk ->
  jt_rule (o_J0 o) T0 (o_g0 o) (r_J xb) (r_T xb) (r_g xb) (r_J xk) (r_T xk) (r_g xk) -> (a < r_dim xb)%nat -> (b < r_dim xk)%nat ->
  transformed_element O src tgt (fst (component c T0)) (snd (component c T0)) (t, t') a b v ->
  v = xform_rme O Ns (triangle_of F) T0 (rl xb) (r_L xb + 2 * Z.of_nat a) (rl xk) (r_L xk + 2 * Z.of_nat b).
Proof.
  intros Ns Nt Jmax src tgt o c F T0 t t' xb xk a b v (Cs & Rs & Js) (Ct & Rt & Jt) Ho H0 H2 (L3 & H) HT Htt Hb Hk Hr Ha Hb' HE. unfold in_range in HT.
  destruct (H T0 ltac:(lia)) as (s & ms & Hn & Nd & Hl & Hin & Hv). unfold component in HE. rewrite (nth_error_nth _ _ _ Hn) in HE. cbn [fst snd] in HE.
  unfold xform_rme. rewrite !lab_L_rl. replace (r_L xb + 2 * Z.of_nat a - r_L xb) with (Z.of_nat a * 2) by lia. replace (r_L xk + 2 * Z.of_nat b - r_L xk) with (Z.of_nat b * 2) by lia. rewrite !Z.div_mul, !Nat2Z.id by lia.
  destruct HE as [(q & [i k] & m & yb & yk & Hq & Hm & (x & y & Sx & Sy & El) & (x' & y' & Sx' & Sy' & El') & Eb & Ek & ->)|(Hno & ->)]; cbn [fst snd] in *.
  - rewrite Hb in Sy, Eb. injection Sy as <-. injection Eb as <-. rewrite Hk in Sy', Ek. injection Sy' as <-. injection Ek as <-.
    pose proof (nth_error_In _ _ Sx) as Ix. pose proof (nth_error_In _ _ Sx') as Ix'. pose proof (nth_error_In _ _ Hb) as Ib. pose proof (nth_error_In _ _ Hk) as Ik.
    apply (rl_labels _ _ _ _ Rs _ _ Rt Ix Ib) in El. apply (rl_labels _ _ _ _ Rs _ _ Rt Ix' Ik) in El'. rewrite <- El, <- El'.
    assert (EL : r_L xb = r_L x) by (unfold rl in El; congruence). assert (EL' : r_L xk = r_L x') by (unfold rl in El'; congruence). rewrite EL, EL'.
    rewrite (rdim_at _ _ _ Sx), (rdim_at _ _ _ Sx'), (radial_dim _ _ _ Rs Ix), (radial_dim _ _ _ Rs Ix').
    destruct (Hv q i k x x' Hq Sx Sx') as (m' & Hm' & R1 & R2 & A). rewrite Hm in Hm'. injection Hm' as <-.
    apply rsum_ext. intros u Hu. apply rsum_ext. intros w Hw. f_equal. f_equal. unfold full_element, triangle_of. cbn [fst snd].
    pose proof (proj1 (Hin _ _) (nth_error_In _ _ Hq)) as (_ & Hik & _).
    destruct (Nat.eqb_spec i k) as [<-|Hne].
    + assert (x' = x) by congruence. subst x'. rewrite rlab_eqb_refl. cbn [andb]. destruct (Nat.ltb_spec w u); destruct (Z.ltb_spec (r_L x + 2 * Z.of_nat w) (r_L x + 2 * Z.of_nat u)); try lia; apply A; auto; lia.
    + assert (Hx : rlab_eqb (rl x) (rl x') = false).
      { destruct (rlab_eqb (rl x) (rl x')) eqn:Ee; [|reflexivity]. apply rlab_eqb_ok in Ee. apply (rl_labels _ _ _ _ Rs _ _ Rs Ix Ix') in Ee. exfalso. apply Hne. destruct Cs as [Cs _].
        eapply (proj1 (NoDup_nth_error _) Cs); [rewrite map_length; apply nth_error_Some; cbn [rel_subs]; congruence|]. cbn [rel_subs]. rewrite (map_nth_error _ _ _ Sx), (map_nth_error _ _ _ Sx'). congruence. }
      rewrite Hx. cbn [andb]. apply A; auto. left. lia.
  - symmetry. destruct (Z_le_dec (r_L xb) Ns) as [Lb|Lb]; [|apply rsum_0; intros u Hu; unfold radial_count in Hu; exfalso; assert ((Ns - r_L xb) / 2 < 0) by (apply Z.div_lt_upper_bound; lia); lia].
    destruct (Z_le_dec (r_L xk) Ns) as [Lk|Lk]; [|apply rsum_0; intros u Hu; apply rsum_0; intros w Hw; unfold radial_count in Hw; exfalso; assert ((Ns - r_L xk) / 2 < 0) by (apply Z.div_lt_upper_bound; lia); lia].
    exfalso. pose proof (nth_error_In _ _ Hb) as Ib. pose proof (nth_error_In _ _ Hk) as Ik.
    assert (Find : forall y, In y tgt -> r_L y <= Ns -> exists i x, nth_error src i = Some x /\ labels_of x = labels_of y).
    { intros y Iy Ly. destruct Rt as [Hall _]. destruct (Hall y Iy) as (B1 & B2 & B3 & B4 & B5 & B6 & _). destruct Cs as [_ Cs]. cbn [rel_Nmax rel_Jmax rel_subs] in Cs.
      destruct (Cs (r_L y) (r_S y) (r_J y) (r_T y)) as (x & Ix & E & _); auto; [lia|]. apply In_nth_error in Ix. destruct Ix as (i & Hi). exists i, x. split; [exact Hi|]. rewrite E. unfold labels_of. congruence. }
    destruct (Find xb Ib Lb) as (i & x & Hi & E). destruct (Find xk Ik Lk) as (k & y & Hk' & E').
    assert (S1 : same_labels src tgt i t) by (exists x, xb; auto). assert (S2 : same_labels src tgt k t') by (exists y, xk; auto).
    apply (Hno (i, k)); [|auto]. apply Hin. split; [exact HT|]. split; [exact (Ho _ _ _ _ S1 S2 Htt)|]. exists x, y. split; [exact Hi|]. split; [exact Hk'|].
    unfold labels_of in E, E'. injection E as _ _ E1 E2 E3. injection E' as _ _ E4 E5 E6. rewrite E1, E2, E3, E4, E5, E6. exact Hr.
Qed.
(** a number in a range of integers *)
Lemma zrange_nth : forall a b T, a <= T <= b -> nth_error (zrange a b) (Z.to_nat (T - a)) = Some T.
Proof.
  intros a b T H. unfold zrange. rewrite (map_nth_error (fun i => a + Z.of_nat i) (Z.to_nat (T - a)) (seq 0 (Z.to_nat (b - a + 1))) (d := Z.to_nat (T - a))); [f_equal; lia|].
  rewrite nth_error_nth' with (d := 0%nat) by (rewrite seq_length; lia). rewrite seq_nth by lia. f_equal.
Qed.
Theorem xf_core : forall ov B f p F, ov (x_steps p) = overlap -> let src := space_of B (rf_Nmax f) (rf_Jmax f) in let tgt := space_of B (x_Nmax p) (rf_Jmax f) in
  rel_space (rf_Nmax f) (rf_Jmax f) src -> rel_space (x_Nmax p) (rf_Jmax f) tgt -> in_order src tgt -> 0 <= o_T0_min (rf_o f) -> o_T0_max (rf_o f) <= 2 -> held src (rf_o f) (rf_c f) F ->
  x_ratio p = ratio -> writable B (x_target p) = true ->
  exists c, xf_run B ov schedule f p = Ok (x_target p, RelFile (rf_o f) (x_Nmax p) (rf_Jmax f) c) /\ held tgt (rf_o f) c (xform_rme O (rf_Nmax f) (triangle_of F)).
Proof.
  intros ov B [o Ns Jmax c] p F Hov src tgt Hs Ht Ho H0 H2 Hh Hr Hw. cbn [rf_o rf_Nmax rf_Jmax rf_c] in *.
  set (tsec := fun T0 => jt_sectors r_J r_T r_g tgt (o_J0 o) T0 (o_g0 o)).
  assert (Hts : forall T0, RelxSpec.rsectors_ok tgt (tsec T0)).
  { intros T0. split; [apply jt_sectors_nodup|]. intros [i k] Hi. apply jt_sectors_in in Hi. destruct Hi as (_ & x & y & Hx & Hy & _). cbn. split; [apply nth_error_Some; congruence|apply nth_error_Some; congruence]. }
  destruct (transform_gen overlap schedule ratio O HO (RParams (o_J0 o) (o_g0 o) (o_T0_min o) (o_T0_max o) Jmax) (RParams (o_J0 o) (o_g0 o) (o_T0_min o) (o_T0_max o) Jmax) src tgt
    (fun T0 => fst (component c T0)) tsec (fun T0 => snd (component c T0))) as (out & E & Lo & A).
  - unfold params_compatible. cbn. lia.
  - apply Hs.
  - apply Ht.
  - intros T0. destruct (held_sectors src o c F H0 H2 Hh T0) as [S1 S2]. split; [exact S1|]. split; [apply Hts|exact S2].
  - cbn [rq_T0_min rq_T0_max] in *. eexists. unfold xf_run. cbn [rf_o rf_Nmax rf_Jmax rf_c]. fold src tgt. rewrite Hr, Hov. fold tsec. split.
    { match goal with |- bind ?t _ = _ => replace t with (Ok out) by (symmetry; exact E) end. cbn [bind]. rewrite Hw. reflexivity. }
    split; [reflexivity|]. intros T0 HT.
    assert (Hn : nth_error (map (fun T0 => if RmeModel.in_labels o T0 then (tsec T0, nth (Z.to_nat (T0 - o_T0_min o)) out []) else ([], [])) [0; 1; 2]) (Z.to_nat T0)
      = Some (if RmeModel.in_labels o T0 then (tsec T0, nth (Z.to_nat (T0 - o_T0_min o)) out []) else ([], []))).
    { apply (map_nth_error (fun T0 => if RmeModel.in_labels o T0 then (tsec T0, nth (Z.to_nat (T0 - o_T0_min o)) out []) else ([], []))). assert (C : T0 = 0 \/ T0 = 1 \/ T0 = 2) by lia. destruct C as [->|[->| ->]]; reflexivity. }
    destruct (RmeModel.in_labels o T0) eqn:El.
    + apply RmeFinal.in_labels_ok in El. unfold in_range in El. pose proof (zrange_nth _ _ _ El) as Hz.
      destruct (nth_error out (Z.to_nat (T0 - o_T0_min o))) as [r|] eqn:Er.
      2: { apply nth_error_None in Er. rewrite Lo in Er. apply nth_error_None in Er. congruence. }
      destruct (A _ _ _ Hz Er) as [Hok Hel]. exists (tsec T0), r. split; [etransitivity; [exact Hn|]; rewrite (nth_error_nth _ _ _ Er); reflexivity|]. split; [apply jt_sectors_nodup|]. split; [symmetry; exact (F2_len _ _ _ Hok)|].
      split.
      * intros i k. unfold tsec. rewrite jt_sectors_in. unfold in_range. tauto.
      * intros q i k x y Hq Hx Hy. destruct (F2_get _ _ _ Hok _ _ Hq) as (m & Hm & R1 & R2). cbn [fst snd] in R1, R2. rewrite (rdim_at _ _ _ Hx) in R1. rewrite (rdim_at _ _ _ Hy) in R2.
        exists m. split; [exact Hm|]. split; [exact R1|]. split; [exact R2|]. intros u v Hu Hv _.
        pose proof (proj1 (jt_sectors_in _ _ _ _ _ _ _ _ _ _) (nth_error_In _ _ Hq)) as (Hik & x' & y' & Hx' & Hy' & Hrule). rewrite Hx in Hx'. injection Hx' as <-. rewrite Hy in Hy'. injection Hy' as <-.
        eapply element_value; try eassumption. apply (Hel q (i, k) m u v Hq Hm); cbn [fst snd]; [rewrite (rdim_at _ _ _ Hx)|rewrite (rdim_at _ _ _ Hy)]; assumption.
    + exists [], []. split; [exact Hn|]. split; [constructor|]. split; [reflexivity|]. split.
      * intros i k. split; [intros []|]. intros (Hir & _). apply RmeFinal.in_labels_ok in Hir. congruence.
      * intros [|q] i k x y Hq; discriminate.
Qed.
End Xform.
Lemma held_ext : forall sp o c F G, (forall T0 i k x y u v, in_range o T0 -> (i <= k)%nat -> nth_error sp i = Some x -> nth_error sp k = Some y ->
  jt_rule (o_J0 o) T0 (o_g0 o) (r_J x) (r_T x) (r_g x) (r_J y) (r_T y) (r_g y) -> (u < r_dim x)%nat -> (v < r_dim y)%nat -> (i < k)%nat \/ (u <= v)%nat ->
  F T0 (rl x) (r_L x + 2 * Z.of_nat u) (rl y) (r_L y + 2 * Z.of_nat v) = G T0 (rl x) (r_L x + 2 * Z.of_nat u) (rl y) (r_L y + 2 * Z.of_nat v)) -> held sp o c F -> held sp o c G.
Proof.
  intros sp o c F G HE (L & H). split; [exact L|]. intros T0 HT. destruct (H T0 HT) as (s & ms & Hn & Nd & Hl & Hin & Hv). exists s, ms. split; [exact Hn|]. split; [exact Nd|]. split; [exact Hl|]. split; [exact Hin|].
  intros q i k x y Hq Hx Hy. destruct (Hv q i k x y Hq Hx Hy) as (m & Hm & R1 & R2 & A). exists m. split; [exact Hm|]. split; [exact R1|]. split; [exact R2|]. intros u v Hu Hv' Huv. rewrite (A u v Hu Hv' Huv).
  apply Hin in Hq || pose proof (proj1 (Hin _ _) (nth_error_In _ _ Hq)) as (Hr & Hik & x' & y' & Hx' & Hy' & Hru). rewrite Hx in Hx'. injection Hx' as <-. rewrite Hy in Hy'. injection Hy' as <-. eapply HE; eauto.
Qed.
Lemma xform_read : forall disk ls p f, xf_input (fun n => match disk n with Some _ => true | None => false end) ls p -> disk (x_source p) = Some f ->
  forall B ov schedule, xf_main B ov schedule disk ls = xf_run B ov schedule f p.
Proof. intros disk ls p f Hin Hd B ov schedule. unfold xf_main. rewrite (proj2 (xf_read_iff _ _ _) Hin). cbn [bind]. rewrite Hd. reflexivity. Qed.
Theorem xf_made : forall ov schedule B disk ls p f F O, xf_input (fun n => match disk n with Some _ => true | None => false end) ls p -> disk (x_source p) = Some f ->
  let src := space_of B (rf_Nmax f) (rf_Jmax f) in let tgt := space_of B (x_Nmax p) (rf_Jmax f) in
  rel_space (rf_Nmax f) (rf_Jmax f) src -> rel_space (x_Nmax p) (rf_Jmax f) tgt -> in_order src tgt -> 0 <= o_T0_min (rf_o f) -> o_T0_max (rf_o f) <= 2 ->
  held src (rf_o f) (rf_c f) F -> symmetric_within F -> complete_schedule schedule -> (0 < x_ratio p)%R -> x_ratio p <> 1%R ->
  (forall L i j, ov (x_steps p) L (x_ratio p) i j = Some (O L i j)) -> writable B (x_target p) = true ->
  exists c, xf_main B ov schedule disk ls = Ok (x_target p, RelFile (rf_o f) (x_Nmax p) (rf_Jmax f) c) /\ held tgt (rf_o f) c (xform_rme O (rf_Nmax f) F).
Proof.
  intros ov schedule B disk ls p f F O Hin Hd src tgt Hs Ht Ho H0 H2 Hh Hsym Hsch Hpos Hne Hov Hw. rewrite (xform_read _ _ _ _ Hin Hd).
  destruct (xf_core (ov (x_steps p)) schedule (x_ratio p) O) with (ov := ov) (B := B) (f := f) (p := p) (F := F) as (c & E & Hc); try assumption; try reflexivity.
  { intros sd td L. apply xform_matrix_overlaps; assumption. }
  exists c. split; [exact E|]. revert Hc. apply held_ext. intros T0 i k x y u v _ _ _ _ _ _ _ _. unfold xform_rme. apply rsum_ext. intros a _. apply rsum_ext. intros b _. f_equal. f_equal.
  unfold triangle_of. destruct (rlab_eqb (rl x) (rl y)) eqn:Ex; [|reflexivity]. apply rlab_eqb_ok in Ex. rewrite <- Ex. destruct (_ <? _); [|reflexivity]. apply Hsym.
Qed.
Lemma count_in : forall Nmax L n, 0 <= L -> (n < radial_count Nmax L)%nat <-> L + 2 * Z.of_nat n <= Nmax.
Proof.
  intros Nmax L n HL. unfold radial_count. pose proof (Z.div_mod (Nmax - L) 2 ltac:(lia)). pose proof (Z.mod_pos_bound (Nmax - L) 2 ltac:(lia)). lia.
Qed.
Theorem xf_equal : forall ov schedule B disk ls p f F, xf_input (fun n => match disk n with Some _ => true | None => false end) ls p -> disk (x_source p) = Some f ->
  let src := space_of B (rf_Nmax f) (rf_Jmax f) in let tgt := space_of B (x_Nmax p) (rf_Jmax f) in
  rel_space (rf_Nmax f) (rf_Jmax f) src -> rel_space (x_Nmax p) (rf_Jmax f) tgt -> in_order src tgt -> 0 <= o_T0_min (rf_o f) -> o_T0_max (rf_o f) <= 2 ->
  held src (rf_o f) (rf_c f) F -> x_ratio p = 1%R -> writable B (x_target p) = true ->
  exists c, xf_main B ov schedule disk ls = Ok (x_target p, RelFile (rf_o f) (x_Nmax p) (rf_Jmax f) c) /\ held tgt (rf_o f) c (up_to (rf_Nmax f) F).
Proof.
  intros ov schedule B disk ls p f F Hin Hd src tgt Hs Ht Ho H0 H2 Hh Hr Hw. rewrite (xform_read _ _ _ _ Hin Hd).
  destruct (xf_core (ov (x_steps p)) schedule 1 (fun _ i j => if Nat.eqb i j then 1 else 0)%R) with (ov := ov) (B := B) (f := f) (p := p) (F := F) as (c & E & Hc); try assumption; try reflexivity.
  { intros sd td L. apply xform_matrix_identity. }
  exists c. split; [exact E|]. revert Hc. apply held_ext. intros T0 i k x y u v _ Hik Hx Hy _ Hu Hv Huv. unfold xform_rme, up_to. rewrite !lab_L_rl.
  replace (r_L x + 2 * Z.of_nat u - r_L x) with (Z.of_nat u * 2) by lia. replace (r_L y + 2 * Z.of_nat v - r_L y) with (Z.of_nat v * 2) by lia. rewrite !Z.div_mul, !Nat2Z.id by lia.
  destruct Ht as ([Ct _] & [Hall _] & _). destruct (Hall x (nth_error_In _ _ Hx)) as ((Lx & _) & _ & _ & _ & _ & Gx & _). destruct (Hall y (nth_error_In _ _ Hy)) as ((Ly & _) & _ & _ & _ & _ & Gy & _).
  destruct (Z.leb_spec (r_L x + 2 * Z.of_nat u) (rf_Nmax f)) as [A|A]; cbn [andb].
  2: { apply rsum_0. intros a Ha. apply (count_in _ _ _ Lx) in Ha. apply rsum_0. intros b _. destruct (Nat.eqb_spec a u); [lia|ring]. }
  rewrite (rsum_one _ u); [|apply count_in; lia|intros a _ Hne; apply rsum_0; intros b _; destruct (Nat.eqb_spec a u); [contradiction|ring]]. rewrite Nat.eqb_refl.
  destruct (Z.leb_spec (r_L y + 2 * Z.of_nat v) (rf_Nmax f)) as [A'|A'].
  2: { apply rsum_0. intros b Hb. apply (count_in _ _ _ Ly) in Hb. destruct (Nat.eqb_spec b v); [lia|ring]. }
  rewrite (rsum_one _ v); [|apply count_in; lia|intros b _ Hne; destruct (Nat.eqb_spec b v); [contradiction|ring]]. rewrite Nat.eqb_refl.
  rewrite Rmult_1_l, Rmult_1_r. unfold triangle_of. destruct (rlab_eqb (rl x) (rl y)) eqn:Ex; cbn [andb]; [|reflexivity]. destruct (Z.ltb_spec (r_L y + 2 * Z.of_nat v) (r_L x + 2 * Z.of_nat u)); [|reflexivity].
  exfalso. apply rlab_eqb_ok in Ex. injection Ex as E1 E2 E3 E4. destruct Huv as [Hlt|Hle]; [|lia].
  assert (i = k); [|lia]. cbn [rel_subs] in Ct. eapply (proj1 (NoDup_nth_error _) Ct); [rewrite map_length; apply nth_error_Some; congruence|]. rewrite (map_nth_error _ _ _ Hx), (map_nth_error _ _ _ Hy).
  unfold labels_of. congruence.
Qed.
(** same space and same length: the same operator *)
Theorem xf_unchanged : forall ov schedule B disk ls p f F, xf_input (fun n => match disk n with Some _ => true | None => false end) ls p -> disk (x_source p) = Some f ->
  let src := space_of B (rf_Nmax f) (rf_Jmax f) in rel_space (rf_Nmax f) (rf_Jmax f) src -> 0 <= o_T0_min (rf_o f) -> o_T0_max (rf_o f) <= 2 ->
  held src (rf_o f) (rf_c f) F -> x_ratio p = 1%R -> x_Nmax p = rf_Nmax f -> writable B (x_target p) = true ->
  exists c, xf_main B ov schedule disk ls = Ok (x_target p, RelFile (rf_o f) (rf_Nmax f) (rf_Jmax f) c) /\ held src (rf_o f) c F.
Proof.
  intros ov schedule B disk ls p f F Hin Hd src Hs H0 H2 Hh Hr HN Hw.
  destruct (xf_equal ov schedule B disk ls p f F Hin Hd) as (c & E & Hc); try assumption; rewrite HN in *; try assumption.
  { intros i i' t t' (x & y & Hx & Hy & E) (x' & y' & Hx' & Hy' & E') Hle. destruct Hs as ([Cs _] & _). cbn [rel_subs] in Cs.
    assert (U : forall i t x y, nth_error src i = Some x -> nth_error src t = Some y -> labels_of x = labels_of y -> i = t).
    { intros a b xa xb Ha Hb Hl. eapply (proj1 (NoDup_nth_error _) Cs); [rewrite map_length; apply nth_error_Some; congruence|]. rewrite (map_nth_error _ _ _ Ha), (map_nth_error _ _ _ Hb). congruence. }
    rewrite (U _ _ _ _ Hx Hy E), (U _ _ _ _ Hx' Hy' E'). exact Hle. }
  exists c. split; [exact E|]. revert Hc. apply held_ext. intros T0 i k x y u v _ _ Hx Hy _ Hu Hv _. unfold up_to. destruct Hs as (_ & [Hall _] & _).
  destruct (Hall x (nth_error_In _ _ Hx)) as (_ & _ & _ & _ & _ & _ & Dx). destruct (Hall y (nth_error_In _ _ Hy)) as (_ & _ & _ & _ & _ & _ & Dy).
  pose proof (Z.mul_div_le (rf_Nmax f - r_L x) 2 ltac:(lia)). pose proof (Z.mul_div_le (rf_Nmax f - r_L y) 2 ltac:(lia)).
  rewrite (proj2 (Z.leb_le _ _)) by lia. rewrite (proj2 (Z.leb_le _ _)) by lia. reflexivity.
Qed.
(** a source that does not exist, or unreadable input, ends the program; so does a target that cannot be written *)
Theorem xf_refused : forall ov schedule B disk ls, (forall p, ~ xf_input (fun n => match disk n with Some _ => true | None => false end) ls p) -> xf_main B ov schedule disk ls = Exit.
Proof. intros ov schedule B disk ls H. unfold xf_main. rewrite xf_read_refuses by exact H. reflexivity. Qed.
Theorem xf_only : forall ov schedule B disk ls name f', xf_main B ov schedule disk ls = Ok (name, f') -> exists p f, xf_input (fun n => match disk n with Some _ => true | None => false end) ls p
  /\ disk (x_source p) = Some f /\ name = x_target p /\ rf_o f' = rf_o f /\ rf_Nmax f' = x_Nmax p /\ rf_Jmax f' = rf_Jmax f /\ writable B name = true.
Proof.
  intros ov schedule B disk ls name f' H. unfold xf_main in H. apply bind_inv in H. destruct H as (p & E & H). apply xf_read_iff in E. destruct (disk (x_source p)) as [f|] eqn:Ed; [|discriminate]. cbn [bind] in H.
  unfold xf_run in H. apply bind_inv in H. destruct H as (bs & _ & H). apply check_inv in H. destruct H as [Hw H]. injection H as <- <-. exists p, f. auto 9.
Qed.
Lemma map_blocks_fails : forall {A B} (f : A -> outcome B) l, (forall x, In x l -> f x = AssertFail \/ exists y, f x = Ok y) -> (exists x, In x l /\ f x = AssertFail) -> map_blocks f l = AssertFail.
Proof.
  intros A B f l. induction l as [|a l IH]; intros H (x & Hi & Hx); [destruct Hi|]. cbn [map_blocks]. destruct (H a (or_introl eq_refl)) as [->|(y & Ey)]; [reflexivity|]. rewrite Ey. cbn [bind].
  destruct Hi as [->|Hi]; [congruence|]. rewrite IH; [reflexivity| |eauto]. intros x' Hx'. apply H. right. exact Hx'.
Qed.
(** a ratio of lengths that is not positive *)
Theorem xf_ratio : forall ov schedule B disk ls p f, xf_input (fun n => match disk n with Some _ => true | None => false end) ls p -> disk (x_source p) = Some f ->
  let src := space_of B (rf_Nmax f) (rf_Jmax f) in let tgt := space_of B (x_Nmax p) (rf_Jmax f) in
  (x_ratio p <= 0)%R -> (exists i t, same_labels src tgt i t) -> xf_main B ov schedule disk ls = AssertFail.
Proof.
  intros ov schedule B disk ls p f Hin Hd src tgt Hr (i & t & x & y & Hx & Hy & E). rewrite (xform_read _ _ _ _ Hin Hd). unfold xf_run, transform_relative. cbn [rq_J0 rq_g0 rq_T0_min rq_T0_max rq_Jmax].
  rewrite !Z.eqb_refl, !Z.leb_refl, Z.geb_leb, Z.leb_refl. cbn [cassert bind]. fold src tgt.
  assert (F : forall z j, find_sub src (r_L z) (r_S z) (r_J z) (r_T z) (r_g z) = Some j -> xform_entry (ov (x_steps p)) schedule src (x_ratio p) z = AssertFail).
  { intros z j Hf. unfold xform_entry. rewrite Hf. apply find_sub_inv in Hf. destruct Hf as (w & -> & _). cbn [get bind]. unfold xform_matrix. destruct (Req_EM_T (x_ratio p) 1) as [E1|_]; [lra|]. destruct (Rlt_dec 0 (x_ratio p)); [lra|]. reflexivity. }
  rewrite map_blocks_fails; [reflexivity| |].
  - intros z _. destruct (find_sub src (r_L z) (r_S z) (r_J z) (r_T z) (r_g z)) as [j|] eqn:Ef; [left; eapply F; exact Ef|]. right. unfold xform_entry. rewrite Ef. eauto.
  - exists y. split; [exact (nth_error_In _ _ Hy)|]. destruct (find_sub src (r_L y) (r_S y) (r_J y) (r_T y) (r_g y)) as [j|] eqn:Ef; [eapply F; exact Ef|]. elim (find_sub_no _ _ Ef i x Hx E).
Qed.
