(** jpv2rel and jpvstat: what is read and written. *)
From Coq Require Import String List ZArith Reals Bool Lia Lra.
From Verif Require Import Base BaseLemmas RMat OscModel OscSpec OscFinal BlockModel BlockProof ObioModel MixModel MixProof MoshModel JpvModel JpvSpec JpvProof IsoModel IsoSpec IsoFinal TrfModel TrfSpec TrfProof RmeModel RmeSpec RmeProof RmeFinal RelxModel RelxSpec RelxProof RgModel MosModel MosSpec MosFile RgnModel RgnSpec RgnInput RgnProof RgnFile.
Import ListNotations.
Open Scope Z_scope.
Open Scope outcome_scope.

Definition scalar_sectors (sp : rspace) : lsectors := jt_sectors r_J r_T r_g sp 0 0 0.
Lemma between_sector : forall sp Jmax Nmax b i k, rme_space Nmax sp -> block_between sp Jmax b i k -> In (i, k) (scalar_sectors sp).
Proof.
  intros sp Jmax Nmax b i k [Hall _] (S0 & F0 & G0 & Hpar & HJ & Hik & x & y & Hx & Hy & (X1 & X2 & X3 & X4 & X5) & (Y1 & Y2 & Y3 & Y4 & Y5)).
  apply jt_sectors_in. split; [exact Hik|]. exists x, y. split; [exact Hx|]. split; [exact Hy|].
  destruct (Hall x (nth_error_In _ _ Hx)) as (_ & _ & TX & CX & _). destruct (Hall y (nth_error_In _ _ Hy)) as (_ & _ & TY & CY & _).
  assert (Hm : Z.min (jb_first b) (jb_second b) mod 2 = Z.max (jb_first b) (jb_second b) mod 2).
  { destruct (Z.min_spec (jb_first b) (jb_second b)) as [[_ ->]|[_ ->]], (Z.max_spec (jb_first b) (jb_second b)) as [[_ ->]|[_ ->]]; Z.div_mod_to_equations; lia. }
  assert (HT : r_T x = r_T y). { rewrite X4, Y4. Z.div_mod_to_equations; lia. }
  assert (Hg : r_g x = r_g y) by congruence.
  split; [|split].
  - unfold couples in *. rewrite X3, Y3 in *. split; [rewrite Z.abs_le; lia|lia].
  - unfold couples in *. rewrite HT. split; [rewrite Z.abs_le; lia|lia].
  - rewrite Hg. replace (r_g y + 0 + r_g y) with (2 * r_g y) by lia. rewrite Z.even_mul. reflexivity.
Qed.
Lemma indexed : forall sp Jmax Nmax (bs : list (jblock * (nat * nat))) texts, rme_space Nmax sp ->
  Forall2 (fun p t => block_text (fst p) t /\ block_between sp Jmax (fst p) (fst (snd p)) (snd (snd p))) bs texts ->
  exists bs', Forall2 (fun p t => block_text (fst p) t /\ belongs sp Jmax (scalar_sectors sp) (fst p) (snd p)) bs' texts
  /\ Forall2 (fun p p' => fst p' = fst p /\ nth_error (scalar_sectors sp) (snd p') = Some (snd p)) bs bs'.
Proof.
  intros sp Jmax Nmax bs texts Hsp H. induction H as [|[b [i k]] t bs texts [Ht Hb] H (bs' & I1 & I2)]; [exists []; split; constructor|].
  cbn [fst snd] in *. pose proof (between_sector _ _ _ _ _ _ Hsp Hb) as Hin. apply In_nth_error in Hin. destruct Hin as (q & Hq). exists ((b, q) :: bs').
  split; constructor; cbn [fst snd]; auto. split; [exact Ht|]. destruct Hb as (S0 & F0 & G0 & Hpar & HJ & Hik & x & y & Hx & Hy & HX & HY). unfold belongs. repeat (split; [assumption|]). exists i, k, x, y. auto 9.
Qed.
Lemma F2_in : forall {A B} (P : A -> B -> Prop) l l' x, Forall2 P l l' -> In x l -> exists y, In y l' /\ P x y.
Proof. intros A B P l l' x H. induction H; intros []; [subst; exists y; cbn; auto|]. destruct (IHForall2 H1) as (z & Hz & Pz). exists z. cbn. auto. Qed.
Theorem source_read : forall depth disk sp Jmax Nmax V name file, disk name = Some file -> rme_space Nmax sp -> rspace_ok sp -> symmetric_V V -> interaction_file depth sp Jmax V file ->
  exists ms, read_source depth disk sp Jmax (scalar_sectors sp) name = Some (Ok ms) /\ rblocks_ok sp (scalar_sectors sp) ms
  /\ forall q i k x y u v, nth_error (scalar_sectors sp) q = Some (i, k) -> nth_error sp i = Some x -> nth_error sp k = Some y -> (u < r_dim x)%nat -> (v < r_dim y)%nat -> (i < k)%nat \/ (u <= v)%nat ->
     entry_of ms q u v = V (r_J x) (r_S x) (r_L x) u (r_L y) v.
Proof.
  intros depth disk sp Jmax Nmax V name file Hd Hsp Hok Hsym (bs & texts & stop & tail & nl & -> & Hbs & Hlen & Hw & Hcov).
  destruct (indexed _ _ _ _ _ Hsp Hbs) as (bs' & I1 & I2). unfold read_source. rewrite Hd.
  assert (Nd : NoDup (scalar_sectors sp)) by apply jt_sectors_nodup.
  assert (Hl' : (length bs' < depth)%nat) by (rewrite <- (F2_len _ _ _ I2); exact Hlen).
  assert (Hw' : Forall (fun p => written_from (V (jb_J (fst p)) (jb_S (fst p))) (fst p)) bs').
  { clear - Hw I2. induction I2 as [|p p' bs bs' [E _] I2 IH]; constructor; inversion Hw; subst; [rewrite E; assumption|auto]. }
  destruct (jpv_interaction V bs' texts sp Jmax (scalar_sectors sp) (rzero_blocks sp (scalar_sectors sp)) stop tail nl depth Hok Nd (rzero_ok _ _) Hsym I1 Hl' Hw') as (ms & E & A).
  destruct (jpv_file bs' texts sp Jmax (scalar_sectors sp) (rzero_blocks sp (scalar_sectors sp)) stop tail nl depth Hok Nd (rzero_ok _ _) I1 Hl') as (ms' & E' & R & _).
  rewrite E in E'. injection E' as <-. exists ms. split; [exact E|]. split; [exact R|]. intros q i k x y u v Hq Hx Hy Hu Hv Huv.
  pose proof (proj1 (jt_sectors_in _ _ _ _ _ _ _ _ _ _) (nth_error_In _ _ Hq)) as (Hik & x' & y' & Hx' & Hy' & Hr). rewrite Hx in Hx'. injection Hx' as <-. rewrite Hy in Hy'. injection Hy' as <-.
  apply (A q u v i k x y); try assumption.
  - exists i, k. split; [exact Hq|]. rewrite (rdim_at _ _ _ Hx), (rdim_at _ _ _ Hy). auto.
  - destruct (Hcov i k x y u v Hik Hx Hy Hr Hu Hv Huv) as (p & Hp & Ep & Hg). destruct (F2_in _ _ _ _ I2 Hp) as (p' & Hp' & F' & N'). exists p'. split; [exact Hp'|]. split; [|rewrite F'; exact Hg].
    rewrite Ep in N'. apply (nodup_nth (scalar_sectors sp) (snd p') q (i, k) Nd N' Hq).
Qed.
(** states of a sector of a scalar of positive parity and T0 = 0 have the same J, T and S *)
Lemma scalar_pair : forall Nmax sp q i k x y, rme_space Nmax sp -> nth_error (scalar_sectors sp) q = Some (i, k) -> nth_error sp i = Some x -> nth_error sp k = Some y -> r_S x = r_S y /\ r_J x = r_J y /\ r_T x = r_T y.
Proof.
  intros Nmax sp q i k x y [Hall _] Hq Hx Hy. pose proof (proj1 (jt_sectors_in _ _ _ _ _ _ _ _ _ _) (nth_error_In _ _ Hq)) as (_ & x' & y' & Hx' & Hy' & HJ & HT & Hg).
  rewrite Hx in Hx'. injection Hx' as <-. rewrite Hy in Hy'. injection Hy' as <-.
  destruct (Hall x (nth_error_In _ _ Hx)) as (LX & SX & TX & CX & PX & GX & _). destruct (Hall y (nth_error_In _ _ Hy)) as (LY & SY & TY & CY & PY & GY & _). unfold couples in *.
  assert (r_J x = r_J y) by lia. assert (r_T x = r_T y) by lia. split; [|auto]. rewrite GX, GY in Hg. rewrite Z.add_0_r, Z.even_add in Hg. rewrite Z.odd_add, Z.odd_add in PX, PY. rewrite H0 in PX.
  assert (Q : forall a, Z.even (a mod 2) = Z.even a) by (intros a; rewrite Zmod_even; destruct (Z.even a); reflexivity). rewrite !Q in Hg.
  rewrite <- !Z.negb_even in PX, PY. destruct (Z.even (r_L x)) eqn:E1, (Z.even (r_L y)) eqn:E2; try discriminate; assert (r_S x = 0 \/ r_S x = 1) as [A|A] by lia; assert (r_S y = 0 \/ r_S y = 1) as [A'|A'] by lia; rewrite A, A' in *; try reflexivity;
   cbn [Z.even negb xorb] in PX, PY; destruct (Z.even (r_T y)); discriminate.
Qed.
Lemma same_pair_refl : forall x y, r_S x = r_S y -> r_J x = r_J y -> r_T x = r_T y -> same_pair (rl x) (rl y) = true.
Proof. intros x y E1 E2 E3. unfold same_pair, rl. rewrite E1, E2, E3, !Z.eqb_refl. reflexivity. Qed.
Lemma potential_rl : forall V x u y v, potential_at V (rl x) (r_L x + 2 * Z.of_nat u) (rl y) (r_L y + 2 * Z.of_nat v) = V (r_J y) (r_S y) (r_L x) u (r_L y) v.
Proof.
  intros V x u y v. unfold potential_at, rl. replace (r_L x + 2 * Z.of_nat u - r_L x) with (Z.of_nat u * 2) by lia. replace (r_L y + 2 * Z.of_nat v - r_L y) with (Z.of_nat v * 2) by lia. rewrite !Z.div_mul, !Nat2Z.id by lia. reflexivity.
Qed.
Theorem jpv_isoscalar : forall depth disk B ls p V name file, jpv_input ls p -> j_T0_max p = 0 -> j_sources p = [name] -> disk name = Some file ->
  let sp := space_of B (j_Nmax p) (j_Jmax p) in rme_space (j_Nmax p) sp -> rspace_ok sp -> symmetric_V V -> interaction_file depth sp (j_Jmax p) V file -> writable B (j_target p) = true ->
  exists c, jpv_main B depth disk ls = Some (Ok (j_target p, RelFile (OpLab 0 0 0 0) (j_Nmax p) (j_Jmax p) c)) /\ held sp (OpLab 0 0 0 0) c (isoscalar_rme V).
Proof.
  intros depth disk B ls p V name file Hin HT Hs Hd sp Hsp Hok Hsym Hf Hw. destruct (source_read depth disk sp (j_Jmax p) _ V name file Hd Hsp Hok Hsym Hf) as (ms & E & R & A).
  unfold jpv_main. rewrite (proj2 (jpv_read_iff _ _) Hin). unfold jpv_run. fold sp. rewrite Hs. cbn [read_sources]. change (jt_sectors r_J r_T r_g sp 0 0 0) with (scalar_sectors sp). rewrite E, HT.
  eexists. split.
  { f_equal. cbn [bind]. rewrite zero_components_ok by (cbn; lia). cbn [bind Z.eqb get nth_error map]. rewrite Hw. reflexivity. }
  split; [reflexivity|]. intros T0 H0. destruct (Z.eq_dec T0 0) as [->|Hne].
  - exists (scalar_sectors sp), ms. split; [reflexivity|]. split; [apply jt_sectors_nodup|]. split; [symmetry; exact (F2_len _ _ _ R)|]. split.
    + intros i k. unfold scalar_sectors. rewrite jt_sectors_in. unfold in_range. cbn. intuition lia.
    + intros q i k x y Hq Hx Hy. destruct (F2_get _ _ _ R _ _ Hq) as (m & Hm & R1 & R2). cbn [fst snd] in R1, R2. rewrite (rdim_at _ _ _ Hx) in R1. rewrite (rdim_at _ _ _ Hy) in R2.
      exists m. split; [exact Hm|]. split; [exact R1|]. split; [exact R2|]. intros u v Hu Hv Huv. pose proof (A q i k x y u v Hq Hx Hy Hu Hv Huv) as Ae. unfold entry_of in Ae. rewrite Hm in Ae. rewrite Ae.
      destruct (scalar_pair _ _ _ _ _ _ _ Hsp Hq Hx Hy) as (S1 & S2 & S3). unfold isoscalar_rme. rewrite same_pair_refl by assumption. rewrite potential_rl. cbn [Z.eqb andb]. congruence.
  - assert (Es : sectors_at sp (OpLab 0 0 0 0) T0 = []) by (unfold sectors_at; cbn [o_T0_min o_T0_max]; destruct (Z.leb_spec 0 T0), (Z.leb_spec T0 0); try lia; reflexivity).
    exists [], []. split; [|split; [constructor|]; split; [reflexivity|]; split].
    + assert (C : T0 = 1 \/ T0 = 2) by lia. destruct C as [-> | ->]; reflexivity.
    + intros i k. split; [intros []|]. unfold in_range. cbn. lia.
    + intros [|q] i k x y Hq; discriminate.
Qed.
(** * T0_max = 2 *)
Lemma sqrt_multiple : forall a b k, (0 <= k)%R -> (0 <= b)%R -> (a = k * k * b)%R -> sqrt a = (k * sqrt b)%R.
Proof. intros a b k Hk Hb ->. rewrite sqrt_mult by nra. rewrite sqrt_square by exact Hk. reflexivity. Qed.
Lemma component_table : forall V T0, (T0 < 3)%nat -> (tz_to_t T0 0 * V 1%Z + tz_to_t T0 1 * V (-1)%Z + tz_to_t T0 2 * V 0%Z)%R = isospin_component V (Z.of_nat T0).
Proof.
  intros V T0 H. unfold isospin_component. cbn [lsum].
  pose proof (sqrt_multiple (9/2) (1/2) 3 ltac:(lra) ltac:(lra) ltac:(lra)) as Q1. pose proof (sqrt_multiple (5/2) (1/10) 5 ltac:(lra) ltac:(lra) ltac:(lra)) as Q2. pose proof (sqrt_multiple 10 (2/5) 5 ltac:(lra) ltac:(lra) ltac:(lra)) as Q3.
  destruct T0 as [|[|[|T0]]]; [| | |lia]; cbn [Z.of_nat Pos.of_succ_nat Pos.succ]; use_cg; unfold tz_to_t; cbv iota; rewrite ?Q1, ?Q2, ?Q3; cbn [Z.mul Z.add Pos.mul Pos.add Pos.succ]; lra.
Qed.
Lemma accumulate_all : forall sp ss s0 pp nn pn c, IsoSpec.rsectors_ok sp ss -> nth_error ss 0 = Some s0 -> rblocks_ok sp s0 pp -> rblocks_ok sp s0 nn -> rblocks_ok sp s0 pn ->
  comps_ok sp ss c -> zero_comps sp ss c -> exists c', accumulate sp s0 [pp; nn; pn] c = Ok c' /\ comps_ok sp ss c'
  /\ (forall T0 s q ix b k xb xk x y, nth_error ss T0 = Some s -> nth_error s q = Some (b, k) -> nth_error s0 ix = Some (b, k) -> nth_error sp b = Some xb -> nth_error sp k = Some xk ->
     in_sector sp s q x y ->
     cent c' T0 q x y = if negb (r_T xb =? r_T xk) then 0%R else if r_T xk =? 0 then (if Nat.eqb T0 0 then entry_of pn ix x y else 0%R)
       else if r_T xk =? 1 then (tz_to_t T0 0 * entry_of pp ix x y + tz_to_t T0 1 * entry_of nn ix x y + tz_to_t T0 2 * entry_of pn ix x y)%R else 0%R)
  /\ (forall T0 s q b k x y, nth_error ss T0 = Some s -> nth_error s q = Some (b, k) -> ~ In (b, k) s0 -> in_sector sp s q x y -> cent c' T0 q x y = 0%R).
Proof.
  intros sp ss s0 pp nn pn c Hss Hs0 H1 H2 H3 Hc Hz. destruct (accumulate_value sp ss s0 pp nn pn c Hss Hs0 H1 H2 H3 Hc Hz) as (c' & E & Hc' & A).
  exists c'. split; [exact E|]. split; [exact Hc'|]. split; [exact A|]. intros T0 s q b k x y Hs Hq Hno Hin.
  destruct (accumulate_adds sp ss s0 pp nn pn Hss Hs0 H1 H2 H3 c Hc) as (c2 & E2 & _ & Hat). rewrite E in E2. injection E2 as <-.
  rewrite (Hat T0 s q x y Hs Hin), (Hz T0 s q x y Hs Hin), Rplus_0_l. apply lsum_0. intros pr _. apply lsum_0. intros ix _. unfold contribution.
  destruct (nth_error s0 ix) as [p|] eqn:Ep; [|reflexivity]. rewrite Hs, Hq. destruct (sector_eqb p (b, k)) eqn:Eq; [|reflexivity]. apply sector_eqb_ok in Eq. subst p. elim Hno. exact (nth_error_In _ _ Ep).
Qed.
Theorem jpv_species : forall depth disk B ls p V pp nn pn fpp fnn fpn, jpv_input ls p -> j_T0_max p = 2 -> j_sources p = [pp; nn; pn] -> disk pp = Some fpp -> disk nn = Some fnn -> disk pn = Some fpn ->
  let sp := space_of B (j_Nmax p) (j_Jmax p) in rme_space (j_Nmax p) sp -> rspace_ok sp -> (forall Tz, symmetric_V (V Tz)) ->
  interaction_file depth sp (j_Jmax p) (V 1) fpp -> interaction_file depth sp (j_Jmax p) (V (-1)) fnn -> interaction_file depth sp (j_Jmax p) (V 0) fpn -> writable B (j_target p) = true ->
  exists c, jpv_main B depth disk ls = Some (Ok (j_target p, RelFile (OpLab 0 0 0 2) (j_Nmax p) (j_Jmax p) c)) /\ held sp (OpLab 0 0 0 2) c (species_rme V).
Proof.
  intros depth disk B ls p V pp nn pn fpp fnn fpn Hin HT Hs D1 D2 D3 sp Hsp Hok Hsym F1 F2 F3 Hw.
  destruct (source_read depth disk sp (j_Jmax p) _ _ _ _ D1 Hsp Hok (Hsym _) F1) as (m1 & E1 & R1 & A1).
  destruct (source_read depth disk sp (j_Jmax p) _ _ _ _ D2 Hsp Hok (Hsym _) F2) as (m2 & E2 & R2 & A2).
  destruct (source_read depth disk sp (j_Jmax p) _ _ _ _ D3 Hsp Hok (Hsym _) F3) as (m3 & E3 & R3 & A3).
  set (o := OpLab 0 0 0 2). set (ss := map (sectors_at sp o) [0; 1; 2]).
  assert (Es : forall T0, 0 <= T0 <= 2 -> sectors_at sp o T0 = jt_sectors r_J r_T r_g sp 0 T0 0).
  { intros T0 HT0. unfold sectors_at, o. cbn [o_T0_min o_T0_max o_J0 o_g0]. rewrite (proj2 (Z.leb_le 0 T0)), (proj2 (Z.leb_le T0 2)) by lia. reflexivity. }
  assert (Hn0 : nth_error ss 0 = Some (scalar_sectors sp)) by (unfold ss; cbn [map nth_error]; rewrite Es by lia; reflexivity).
  assert (Hss : IsoSpec.rsectors_ok sp ss).
  { split; [reflexivity|]. split; [|split].
    - apply Forall_forall. intros s Hin'. apply in_map_iff in Hin'. destruct Hin' as (T0 & <- & _). apply sectors_at_nodup.
    - intros s0 b k xb xk s Hs0 Hbk Hb Hk Tb Tk Hin'. rewrite Hn0 in Hs0. injection Hs0 as <-. apply in_map_iff in Hin'. destruct Hin' as (T0 & <- & HT0).
      assert (HT3 : 0 <= T0 <= 2) by (cbn in HT0; lia). apply jt_sectors_in in Hbk. destruct Hbk as (Hle & x & y & Hx & Hy & RJ & RT & Rg). rewrite Hb in Hx. injection Hx as <-. rewrite Hk in Hy. injection Hy as <-.
      rewrite Es by exact HT3. apply jt_sectors_in. split; [exact Hle|]. exists xb, xk. split; [exact Hb|]. split; [exact Hk|]. split; [exact RJ|]. split; [|exact Rg]. unfold couples. rewrite Tb, Tk. split; [rewrite Z.abs_le; lia|lia].
    - intros s b k Hin' Hbk. apply in_map_iff in Hin'. destruct Hin' as (T0 & <- & _). apply sectors_at_in in Hbk. destruct Hbk as (_ & _ & x & y & Hx & Hy & _).
      split; [apply nth_error_Some; congruence|apply nth_error_Some; congruence]. }
  set (z := map (fun T0 => (sectors_at sp o T0, rzero_blocks sp (sectors_at sp o T0))) [0; 1; 2]).
  destruct (accumulate_all sp ss (scalar_sectors sp) m1 m2 m3 z Hss Hn0 R1 R2 R3) as (c & E & Hc & A & A0).
  { unfold comps_ok, ss, z. cbn [map]. repeat (constructor; [split; [reflexivity|apply rzero_ok]|]). constructor. }
  { intros T0 s q x y Hs' _. unfold cent. destruct (nth_error z T0) as [[s' ms]|] eqn:En; [|reflexivity]. apply nth_error_In, in_map_iff in En. destruct En as (T & [= <- <-] & _). apply rzero_entry. }
  exists c. split.
  { unfold jpv_main. rewrite (proj2 (jpv_read_iff _ _) Hin). unfold jpv_run. fold sp. rewrite Hs. cbn [read_sources]. change (jt_sectors r_J r_T r_g sp 0 0 0) with (scalar_sectors sp). rewrite E1, E2, E3, HT.
    cbn [bind]. fold o. rewrite zero_components_ok by (cbn; lia). fold z. cbn [bind Z.eqb]. rewrite E. cbn [bind]. rewrite Hw. reflexivity. }
  split; [symmetry; exact (F2_len _ _ _ Hc)|]. intros T0 HT0.
  assert (Hn : nth_error ss (Z.to_nat T0) = Some (sectors_at sp o T0)).
  { unfold ss. apply map_nth_error. assert (C : T0 = 0 \/ T0 = 1 \/ T0 = 2) by lia. destruct C as [->|[->| ->]]; reflexivity. }
  destruct (F2_get _ _ _ Hc _ _ Hn) as ([s ms] & Hcn & Hsn & Hb). cbn [fst snd] in Hsn, Hb. subst s. exists (sectors_at sp o T0), ms. split; [exact Hcn|]. split; [apply sectors_at_nodup|].
  split; [symmetry; exact (F2_len _ _ _ Hb)|]. split; [intros; apply sectors_at_in|].
  intros q i k x y Hq Hx Hy. destruct (F2_get _ _ _ Hb _ _ Hq) as (m & Hm & Rm & Cm). cbn [fst snd] in Rm, Cm. rewrite (rdim_at _ _ _ Hx) in Rm. rewrite (rdim_at _ _ _ Hy) in Cm.
  exists m. split; [exact Hm|]. split; [exact Rm|]. split; [exact Cm|]. intros u v Hu Hv Huv.
  assert (Hat : at_ m u v = cent c (Z.to_nat T0) q u v) by (unfold cent; rewrite Hcn; unfold entry_of; rewrite Hm; reflexivity). rewrite Hat. clear Hat.
  assert (His : in_sector sp (sectors_at sp o T0) q u v) by (exists i, k; split; [exact Hq|]; rewrite (rdim_at _ _ _ Hx), (rdim_at _ _ _ Hy); auto).
  destruct (in_dec (fun a b : nat * nat => ltac:(decide equality; apply Nat.eq_dec)) (i, k) (scalar_sectors sp)) as [Hi|Hi].
  - apply In_nth_error in Hi. destruct Hi as (ix & Hix). rewrite (A _ _ _ ix i k x y u v Hn Hq Hix Hx Hy His).
    destruct (scalar_pair _ _ _ _ _ _ _ Hsp Hix Hx Hy) as (S1 & S2 & S3). rewrite S3, Z.eqb_refl. cbn [negb]. unfold species_rme. rewrite same_pair_refl by assumption.
    rewrite (A1 ix i k x y u v Hix Hx Hy Hu Hv Huv), (A2 ix i k x y u v Hix Hx Hy Hu Hv Huv), (A3 ix i k x y u v Hix Hx Hy Hu Hv Huv), S1, S2.
    change (rl y) with (r_L y, r_S y, r_J y, r_T y) at 1. cbv beta iota. rewrite (component_table (fun Tz => V Tz (r_J y) (r_S y) (r_L x) u (r_L y) v)) by lia. rewrite Z2Nat.id by lia.
    unfold isospin_component. rewrite !potential_rl.
    destruct (Z.eqb_spec (r_T y) 0) as [Ht|Ht]; [rewrite Ht; cbn [Z.eqb andb]; destruct (Z.eqb_spec T0 0) as [->|N0]; [reflexivity|destruct (Nat.eqb_spec (Z.to_nat T0) 0); [lia|reflexivity]]|].
    destruct (Z.eqb_spec (r_T y) 1) as [Ht1|Ht1]; [|reflexivity]. f_equal. apply lsum_ext. intros Tz _. rewrite potential_rl. reflexivity.
  - rewrite (A0 _ _ _ i k u v Hn Hq Hi His). unfold species_rme. destruct (same_pair (rl x) (rl y)) eqn:Esp; [|reflexivity]. exfalso. apply Hi. apply jt_sectors_in.
    pose proof (proj1 (sectors_at_in _ _ _ _ _) (nth_error_In _ _ Hq)) as (_ & Hle & x' & y' & Hx' & Hy' & RJ & RT & Rg). rewrite Hx in Hx'. injection Hx' as <-. rewrite Hy in Hy'. injection Hy' as <-.
    split; [exact Hle|]. exists x, y. split; [exact Hx|]. split; [exact Hy|]. split; [exact RJ|]. split; [|exact Rg]. unfold same_pair, rl in Esp. rewrite !andb_true_iff, !Z.eqb_eq in Esp. destruct Esp as [_ ->].
    destruct Hsp as [Hall _]. destruct (Hall y (nth_error_In _ _ Hy)) as (_ & _ & TY & _). unfold couples. split; [rewrite Z.abs_le; lia|lia].
Qed.
