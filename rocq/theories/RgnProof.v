(** relative-gen and relcm-gen: what is written. *)
From Coq Require Import String List ZArith Reals Bool Lia Lra.
From Verif Require Import Base BaseLemmas RMat OscModel OscSpec OscFinal BlockModel BlockProof MixModel MixProof MoshModel JpvModel JpvSpec IsoModel IsoSpec IsoFinal TrfModel TrfSpec TrfProof RmeModel RmeSpec RmeProof RmeFinal RmeUnit RmeSym RmeCase WfModel WfSpec LenModel LenSpec LenProof LenCm LenFinal LenUnit RelxModel RgModel MosModel MosSpec RgnModel RgnSpec RgnInput.
Import ListNotations.
Open Scope Z_scope.
Open Scope outcome_scope.

(** * Zero *)
Lemma zero_stored : forall sp o, 0 <= o_T0_min o -> o_T0_max o <= 2 -> exists c, zero_operator o sp = Ok c /\ stores_num sp o c no_element.
Proof.
  intros sp o H0 H2. destruct (zero_operator_parts sp o H0 H2) as (z & E & L & N). exists z. split; [exact E|]. split; [exact L|].
  intros T0 HT. destruct (N T0 HT) as (ms & Hn & Hl & Hm). exists (sectors_at sp o T0), ms. split; [exact Hn|]. split; [apply sectors_at_nodup|]. split; [exact Hl|].
  split; [intros; apply sectors_at_in|]. exact Hm.
Qed.
(** * Squares *)
Lemma sqr_stored : forall Nmax sp o ct T0, rme_space Nmax sp -> o_J0 o = 0 -> o_g0 o = 0 -> T0 = 0 \/ T0 = 1 -> in_range o T0 -> 0 <= o_T0_min o -> o_T0_max o <= 2 ->
  exists c, coordinate_sqr_op o sp ct T0 = Ok c /\ stores_num sp o c (sqr_rme ct T0).
Proof.
  intros Nmax sp o ct T0 Hsp HJ Hg HT Hr H0 H2. unfold coordinate_sqr_op. rewrite HJ, Hg. change (0 =? 0) with true. cbn [cassert bind].
  rewrite (proj2 (in_labels_ok o T0) Hr). replace ((T0 =? 0) || (T0 =? 1)) with true by (destruct HT as [->| ->]; reflexivity). cbn [cassert bind].
  apply with_component_ok; try assumption.
  2: { intros t [[[L' s'] J'] T'] N [[[L s] J] T] M Ht. cbn. rewrite (proj2 (Z.eqb_neq _ _) Ht). reflexivity. }
  intros i k x y Hik Hx Hy [HJJ [HTT Hpar]]. destruct (space_nonneg _ _ Hsp _ _ Hx) as (Lx & Sx & Tx & gx). destruct (space_nonneg _ _ Hsp _ _ Hy) as (Ly & Sy & Ty & gy).
  unfold coordinate_sqr_block. cbv [sqr_rme rl same]. cbv beta iota. rewrite Z.eqb_refl. cbn [andb].
  destruct ((r_L x =? r_L y) && (r_S x =? r_S y) && (r_T x =? r_T y)) eqn:Hc; cbn [negb].
  2: { apply zero_block_rule. reflexivity. }
  rewrite !andb_true_iff, !Z.eqb_eq in Hc. destruct Hc as [[Hd Hs] Ht].
  assert (Dx : r_dim x = r_dim y).
  { destruct Hsp as [Hall _]. destruct (Hall x (nth_error_In _ _ Hx)) as (_ & _ & _ & _ & _ & _ & A). destruct (Hall y (nth_error_In _ _ Hy)) as (_ & _ & _ & _ & _ & _ & A').
    rewrite Hd in A. lia. }
  destruct (radial_sqr_complete (r_dim y) (r_dim y) (r_L y) 0 (match ct with KR => 1 | KK => -1 end) ltac:(lia) ltac:(lia) ltac:(lia)) as (m & E & R1 & C1 & A).
  rewrite E. cbn [bind]. eexists. split; [reflexivity|]. split; [cbn [mat_scale rows]; congruence|]. split; [exact C1|]. intros u v Hu Hv. cbn [mat_scale at_].
  rewrite Dx in Hu. specialize (A u v Hu Hv). rewrite Z.add_0_r in A. replace (2 * Z.of_nat u + r_L y) with (r_L y + 2 * Z.of_nat u) in A by lia.
  replace (2 * Z.of_nat v + r_L y) with (r_L y + 2 * Z.of_nat v) in A by lia. rewrite A, Hd.
  destruct (sqr_num (r_L y + 2 * Z.of_nat u) (r_L y) (r_L y + 2 * Z.of_nat v) (r_L y) (match ct with KR => 1 | KK => -1 end)) as (z & Ez); [apply ho_state; lia|apply ho_state; lia|].
  rewrite Ez. cbn [nscale val]. f_equal. unfold generator. destruct HT as [->| ->]; cbn [Z.eqb Pos.eqb]; ring.
Qed.
(** * The Coulomb interaction *)
Lemma species_value : forall t T0 T v, (T0 < 3)%nat -> coulomb_value t T0 T v = (species_part t (Z.of_nat T0) T * v)%R.
Proof.
  intros t T0 T v H. unfold coulomb_value, species_part. destruct t.
  - destruct (T =? 1); [|ring]. destruct T0 as [|[|[|T0]]]; try lia; reflexivity.
  - destruct (T =? 1); [|ring]. destruct T0 as [|[|[|T0]]]; try lia; cbn [nth Z.of_nat Pos.of_succ_nat Pos.succ Z.eqb Pos.eqb]; try reflexivity. unfold Rdiv. ring.
  - destruct T0 as [|[|[|T0]]]; try lia; cbn [Nat.eqb Z.of_nat Pos.of_succ_nat Pos.succ Z.eqb Pos.eqb]; ring.
Qed.
Lemma nth_3 : forall {A} (x y z d : A) T0, 0 <= T0 <= 2 -> nth_error [x; y; z] (Z.to_nat T0) = Some (if T0 =? 0 then x else if T0 =? 1 then y else z).
Proof. intros A x y z d T0 H. assert (C : T0 = 0 \/ T0 = 1 \/ T0 = 2) by lia. destruct C as [->|[->| ->]]; reflexivity. Qed.
Lemma zero_components_ok : forall o sp, 0 <= o_T0_min o -> o_T0_max o <= 2 ->
  zero_components o sp = Ok (map (fun T0 => (sectors_at sp o T0, rzero_blocks sp (sectors_at sp o T0))) [0; 1; 2]).
Proof.
  intros o sp H0 H2. unfold zero_components. rewrite (proj2 (Z.ltb_ge _ _) H0), (proj2 (Z.ltb_ge _ _) H2). cbn [Datatypes.orb andb]. f_equal. apply map_ext. intros T0.
  unfold sectors_at, RmeModel.in_labels. destruct (_ && _); reflexivity.
Qed.
Lemma rzero_ok : forall sp s, rblocks_ok sp s (rzero_blocks sp s).
Proof. intros sp s. unfold rblocks_ok, rzero_blocks. induction s as [|x s IH]; constructor; [split; reflexivity|exact IH]. Qed.
Lemma rzero_entry : forall sp s q x y, entry_of (rzero_blocks sp s) q x y = 0%R.
Proof.
  intros sp s q x y. unfold entry_of, rzero_blocks. destruct (nth_error (map _ s) q) as [m|] eqn:E; [|reflexivity].
  apply nth_error_In, in_map_iff in E. destruct E as (p & <- & _). reflexivity.
Qed.
Lemma rdim_at : forall sp i x, nth_error sp i = Some x -> rdim sp i = r_dim x.
Proof. intros sp i x H. unfold rdim. rewrite H. reflexivity. Qed.
Lemma coulomb_stored : forall radial t Nmax sp o, rme_space Nmax sp -> rspace_ok sp -> o_J0 o = 0 -> o_g0 o = 0 -> 0 <= o_T0_min o -> o_T0_max o <= 2 ->
  exists z c, zero_components o sp = Ok z /\ coulomb radial t (fun _ => Nmax) 0 0 (o_T0_min o) (o_T0_max o) sp z = Ok c
  /\ stores_num sp o (num_components c) (coulomb_rme radial t).
Proof.
  intros radial t Nmax sp o Hsp Hok HJ Hg H0 H2. eexists. 
  set (ss := map (sectors_at sp o) [0; 1; 2]).
  destruct (coulomb_ok radial t (fun _ => Nmax) (o_T0_min o) (o_T0_max o) sp ss (map (fun T0 => (sectors_at sp o T0, rzero_blocks sp (sectors_at sp o T0))) [0; 1; 2])) as (c & E & Hc & A); try assumption.
  - intros k x Hx. destruct Hsp as [Hall _]. destruct (Hall x (nth_error_In _ _ Hx)) as (B1 & _ & _ & _ & _ & _ & B2). lia.
  - reflexivity.
  - intros s b k Hs Hin. apply in_map_iff in Hs. destruct Hs as (T0 & <- & _). apply sectors_at_in in Hin. destruct Hin as (_ & _ & x & y & Hx & Hy & _).
    split; [apply nth_error_Some; congruence|apply nth_error_Some; congruence].
  - unfold comps_ok, ss. cbn [map]. repeat (constructor; [split; [reflexivity|apply rzero_ok]|]). constructor.
  - intros T0 s q x y Hs _. unfold cent. destruct (nth_error (map _ [0; 1; 2]) T0) as [[s' ms]|] eqn:En; [|reflexivity].
    apply nth_error_In, in_map_iff in En. destruct En as (T & [= <- <-] & _). apply rzero_entry.
  - exists c. split; [apply zero_components_ok; assumption|]. split; [exact E|].
    assert (Lc : length c = 3%nat).
    { assert (F2 : forall {A B} (R : A -> B -> Prop) l l', Forall2 R l l' -> length l = length l') by (intros X Y R l l' H; induction H; cbn; congruence). rewrite <- (F2 _ _ _ _ _ Hc). reflexivity. }
    split; [unfold num_components; rewrite map_length; exact Lc|]. intros T0 HT. exists (sectors_at sp o T0).
    assert (Hn : nth_error ss (Z.to_nat T0) = Some (sectors_at sp o T0)).
    { unfold ss. cbn [map]. assert (C : T0 = 0 \/ T0 = 1 \/ T0 = 2) by lia. destruct C as [->|[->| ->]]; reflexivity. }
    assert (F2n : forall {A B} (R : A -> B -> Prop) l l', Forall2 R l l' -> forall n x, nth_error l n = Some x -> exists y, nth_error l' n = Some y /\ R x y).
    { intros X Y R l l' H. induction H; intros [|n] x' Hx'; cbn in *; try discriminate; [injection Hx' as <-; eauto|eauto]. }
    destruct (F2n _ _ _ _ _ Hc _ _ Hn) as ([s ms] & Hcn & Hs & Hb). cbn [fst snd] in Hs, Hb. subst s.
    exists (map to_num ms). split; [unfold num_components; rewrite (map_nth_error _ _ _ Hcn); reflexivity|]. split; [apply sectors_at_nodup|].
    assert (F2 : forall {A B} (R : A -> B -> Prop) l l', Forall2 R l l' -> length l = length l') by (intros X Y R l l' H; induction H; cbn; congruence).
    split; [rewrite map_length; symmetry; exact (F2 _ _ _ _ _ Hb)|]. split; [intros; apply sectors_at_in|].
    intros q i k x y Hq Hx Hy. destruct (F2n _ _ _ _ _ Hb _ _ Hq) as (m & Hm & Rm & Cm). cbn [fst snd] in Rm, Cm.
    exists (to_num m). split; [rewrite (map_nth_error _ _ _ Hm); reflexivity|]. split; [cbn; rewrite Rm; apply rdim_at; exact Hx|]. split; [cbn; rewrite Cm; apply rdim_at; exact Hy|].
    intros u v Hu Hv. cbn [to_num at_]. f_equal.
    specialize (A (Z.to_nat T0) _ q i k y u v Hn Hq Hy). unfold cent in A. rewrite Hcn in A. unfold entry_of in A. rewrite Hm in A. rewrite A.
    2:{ exists i, k. split; [exact Hq|]. rewrite (rdim_at _ _ _ Hx), (rdim_at _ _ _ Hy). auto. }
    pose proof (proj1 (sectors_at_in _ _ _ _ _) (nth_error_In _ _ Hq)) as (Hr & Hle & _). rewrite Z2Nat.id by lia. destruct Hr as [Ha Hb'].
    rewrite (proj2 (Z.leb_le _ _) Ha), (proj2 (Z.leb_le _ _) Hb'). cbn [andb]. unfold coulomb_rme, rl.
    destruct (Nat.eqb_spec i k) as [->|Hne].
    + assert (x = y) as <- by congruence. rewrite rlab_eqb_refl. rewrite species_value by lia. rewrite Z2Nat.id by lia. f_equal. f_equal.
      replace (r_L x + 2 * Z.of_nat u - r_L x) with (Z.of_nat u * 2) by lia. replace (r_L x + 2 * Z.of_nat v - r_L x) with (Z.of_nat v * 2) by lia. rewrite !Z.div_mul by lia. reflexivity.
    + destruct (rlab_eqb (r_L x, r_S x, r_J x, r_T x) (r_L y, r_S y, r_J y, r_T y)) eqn:Ee; [|reflexivity]. apply rlab_eqb_ok in Ee. injection Ee as E1 E2 E3 E4. exfalso. apply Hne.
      assert (Hl : labels_of x = labels_of y).
      { unfold labels_of. destruct Hsp as [Hall _]. destruct (Hall x (nth_error_In _ _ Hx)) as (_ & _ & _ & _ & _ & G1 & _). destruct (Hall y (nth_error_In _ _ Hy)) as (_ & _ & _ & _ & _ & G2 & _). congruence. }
      eapply (proj1 (NoDup_nth_error _) Hok); [rewrite map_length; apply nth_error_Some; congruence|]. rewrite (map_nth_error _ _ _ Hx), (map_nth_error _ _ _ Hy). congruence.
Qed.
(** protons only: the components branch to the matrix element between two protons *)
Lemma species_branches : forall t Tz v, t <> OpTotal -> Z.abs Tz <= 1 ->
  branched Tz (species_part t 0 1 * v) (species_part t 1 1 * v) (species_part t 2 1 * v) = if Tz =? match t with OpP => 1 | _ => -1 end then v else 0%R.
Proof.
  intros t Tz v Ht HT. pose proof (coulomb_branch t Tz v Ht HT) as H. rewrite !species_value in H by lia. exact H.
Qed.

(** * relative-gen *)
Section Generation.
Variable racah1 racah2 : Z -> Z -> Z -> Z -> Z -> Z -> Z -> R.
Variable w3j w6j : Z -> Z -> Z -> Z -> Z -> Z -> R.
Variable jrme : Z -> Z -> R.
Variable tgamma : R -> R.
Variable quad : list R -> list fl -> num.
Variable racah12 : Z -> Z -> Z -> Z -> Z -> Z -> Z -> Z -> Z -> R.
Variable crme : Z -> Z -> Z -> R.
Variable jhalf : R.
Variable cj1 cj2 : Z -> Z -> R.
Variable inverse_r : Z -> Z -> Z -> Z -> R.
Variable daejeon : option (oplab -> rspace -> outcome ncomponents).
Variable B : rellib.
Notation gen_populate := (gen_populate racah1 racah2 w3j w6j jrme tgamma quad racah12 crme jhalf cj1 cj2 inverse_r daejeon B).
Notation gen_main := (gen_main racah1 racah2 w3j w6j jrme tgamma quad racah12 crme jhalf cj1 cj2 inverse_r daejeon B).
Notation made := (made racah1 racah2 w3j w6j tgamma quad racah12 crme inverse_r).
Notation cm_main := (cm_main racah1 racah2 tgamma quad racah12 crme jhalf B).

Theorem populate_made : forall p F, let sp := space_of B (g_Nmax p) (g_Jmax p) in rme_space (g_Nmax p) sp -> rspace_ok sp -> identity_ok B ->
  (forall T' T, jrme T' T = if (T' =? T) then sqrt (IZR (T * (T + 1))) else 0%R) ->
  gamma_fn tgamma -> quad_ok quad -> one_spin jhalf racah1 racah2 cj1 cj2 -> diagonal2 racah2 ->
  0 <= o_T0_min (g_o p) -> o_T0_max (g_o p) <= 2 -> made sp (g_name p) (g_args p) (g_o p) F ->
  exists c, gen_populate p = Ok c /\ stores_num sp (g_o p) c F.
Proof.
  intros p F sp Hsp Hok Hid Hj Hgam Hq H1 Hd Hmin Hmax Hm. unfold gen_populate. fold sp. clearbody sp. destruct p as [o Nmax Jmax name args target]. cbn [g_o g_Nmax g_Jmax g_name g_args g_target] in *.
  destruct Hm; cbn -[zero_operator coordinate_sqr_op dipole quadrupole orbital_am spin_am isospin_op su4_casimir coulomb symmunit lo_gt relative_gen_gt zero_components].
  - apply zero_stored; assumption.
  - apply Hid; assumption.
  - eapply sqr_stored; eauto.
  - eapply sqr_stored; eauto.
  - eapply sqr_stored; eauto.
  - eapply dipole_stored; eauto.
  - eapply quadrupole_stored; eauto.
  - eapply orbital_stored; eauto.
  - eapply spin_stored; eauto.
  - eapply isospin_stored; eauto.
  - eapply su4_stored; eauto. unfold in_range in *. lia.
  - destruct (coulomb_stored (inverse_r steps) t Nmax sp o Hsp Hok) as (z & c & E1 & E2 & S); try assumption. rewrite H, H0, E1. cbn [Z.eqb cassert bind]. rewrite E2. cbn [bind]. eauto.
  - destruct H as (Hr & ib & ik & b & k & i & j & A1 & A2 & A3 & A4 & A5 & A6 & A7 & A8 & A9 & A10). exact (unit_stored Nmax sp o u Hsp Hok Hmin Hmax ib ik b k A1 A2 A3 A4 i j Hr A5 A6 A7 A8 A9 A10).
  - eapply lo_stored; eauto.
  - rewrite gt_program by lia. eapply gt_stored; eauto. lia.
Qed.
Theorem gen_made : forall ls p F, gen_input (has_daejeon daejeon) ls p -> let sp := space_of B (g_Nmax p) (g_Jmax p) in rme_space (g_Nmax p) sp -> rspace_ok sp -> identity_ok B ->
  (forall T' T, jrme T' T = if (T' =? T) then sqrt (IZR (T * (T + 1))) else 0%R) ->
  gamma_fn tgamma -> quad_ok quad -> one_spin jhalf racah1 racah2 cj1 cj2 -> diagonal2 racah2 ->
  0 <= o_T0_min (g_o p) -> o_T0_max (g_o p) <= 2 -> made sp (g_name p) (g_args p) (g_o p) F -> writable B (g_target p) = true ->
  exists c, gen_main ls = Ok (g_target p, RelFile (g_o p) (g_Nmax p) (g_Jmax p) c) /\ stores_num sp (g_o p) c F.
Proof.
  intros ls p F Hin sp Hsp Hok Hid Hj Hgam Hq H1 Hd Hmin Hmax Hm Hw. destruct (populate_made p F) as (c & E & S); try assumption. exists c. split; [|exact S].
  unfold RgnModel.gen_main. rewrite (proj2 (gen_read_iff _ _ _) Hin). cbn [bind]. unfold gen_run. rewrite E. cbn [bind]. rewrite Hw. reflexivity.
Qed.
(** a run that ends with success *)
Lemma assert_inv : forall {A} b (m : outcome A) x, bind (cassert b) (fun _ => m) = Ok x -> b = true /\ m = Ok x.
Proof. intros A [] m x H; [auto|discriminate]. Qed.
Lemma check_inv : forall {A} b (m : outcome A) x, bind (check b) (fun _ => m) = Ok x -> b = true /\ m = Ok x.
Proof. intros A [] m x H; [auto|discriminate]. Qed.
Ltac names := repeat match goal with H : In _ _ |- _ => cbn in H end; repeat match goal with H : _ \/ _ |- _ => destruct H end; try contradiction; try congruence; subst; try discriminate.
Lemma labels_true : forall o T, RmeModel.in_labels o T = true -> in_range o T.
Proof. intros o T. apply in_labels_ok. Qed.
Ltac asserts := repeat match goal with
  | H : bind (cassert _) _ = Ok _ |- _ => apply assert_inv in H; let E := fresh "E" in destruct H as [E H]
  | H : (_ =? _) = true |- _ => apply Z.eqb_eq in H
  | H : (_ <=? _) = true |- _ => apply Z.leb_le in H
  | H : RmeModel.in_labels _ _ = true |- _ => apply labels_true in H
  | H : _ && _ = true |- _ => apply andb_true_iff in H; destruct H
  end.
Ltac orcase T0 := match goal with H : _ = true |- _ => apply orb_prop in H; destruct H as [H|H]; apply Z.eqb_eq in H; auto end.
Theorem populate_suits : forall p c, gen_populate p = Ok c -> In (g_name p) gen_names /\ suits (g_name p) (g_args p) (g_o p).
Proof.
  intros p c H. unfold RgnModel.gen_populate in H. destruct p as [o Nmax Jmax name args target]. cbn [g_o g_Nmax g_Jmax g_name g_args g_target] in *.
  assert (L := labels_refused racah1 racah2 w3j w6j jrme o (space_of B Nmax Jmax)).
  unfold suits.
  repeat match type of H with (if String.eqb name ?s then _ else _) = _ => destruct (String.eqb_spec name s) as [->|?] end; try discriminate;
    (split; [cbn; tauto|]).
  - repeat split; intros; names.
  - repeat split; intros; names.
  - unfold coordinate_sqr_op in H. asserts. repeat split; intros; names; apply E2.
  - unfold coordinate_sqr_op in H. asserts. repeat split; intros; names; apply E2.
  - destruct args as [| |ct T0| | | |]; try discriminate. unfold coordinate_sqr_op in H. asserts. repeat split; intros; names; exists ct, T0; (split; [reflexivity|]); (split; [auto|]); (split; [|exact E2]); (orcase T0).
  - destruct args as [| |ct T0| | | |]; try discriminate.
    destruct (Z.eq_dec (o_J0 o) 1), (Z.eq_dec (o_g0 o) 1), (Z.eq_dec T0 1), (Z_le_dec (o_T0_min o) T0), (Z_le_dec T0 (o_T0_max o));
      try (rewrite (proj1 (L ct T0)) in H by (unfold in_range; tauto); discriminate).
    subst. repeat split; intros; names. exists ct. repeat split; assumption.
  - destruct args as [| |ct T0| | | |]; try discriminate. unfold quadrupole in H. asserts. destruct ct; [discriminate|]. repeat split; intros; names; exists T0; (split; [reflexivity|]); (split; [auto|]); (split; [auto|]); (split; [|assumption]); (apply orb_prop in E1; destruct E1 as [E1|E1]; apply Z.eqb_eq in E1; auto).
  - destruct args as [|T0| | | | |]; try discriminate. unfold orbital_am in H. asserts. repeat split; intros; names; exists T0; (split; [reflexivity|]); (split; [auto|]); (split; [|assumption]); (orcase T0).
  - destruct args as [|T0| | | | |]; try discriminate. unfold spin_am in H. asserts. repeat split; intros; names; exists T0; (split; [reflexivity|]); (split; [auto|]); (split; [|assumption]); (orcase T0).
  - unfold isospin_op in H. asserts. repeat split; intros; names; apply E1.
  - unfold su4_casimir in H. asserts. repeat split; intros; names; try lia.
  - destruct args; try discriminate. asserts. repeat split; intros; names.
  - repeat split; intros; names.
  - repeat split; intros; names.
  - unfold lo_gt in H. apply bind_inv in H. destruct H as (s & H & _). unfold spin_am in H. asserts. repeat split; intros; names; unfold in_range in *; lia.
  - destruct args; try discriminate. unfold relative_gen_gt in H. destruct (steps <? 0); [discriminate|]. unfold n2lo_gt in H. apply bind_inv in H. destruct H as (d & _ & H).
    apply check_inv in H. destruct H as [H _]. rewrite !andb_true_iff, !Z.eqb_eq, !Z.leb_le in H. repeat split; intros; names; unfold in_range in *; lia.
Qed.
Theorem gen_only : forall ls name f, gen_main ls = Ok (name, f) -> exists p c, gen_input (has_daejeon daejeon) ls p /\ name = g_target p /\ f = RelFile (g_o p) (g_Nmax p) (g_Jmax p) c
  /\ gen_populate p = Ok c /\ In (g_name p) gen_names /\ suits (g_name p) (g_args p) (g_o p) /\ writable B name = true.
Proof.
  intros ls name f H. unfold RgnModel.gen_main in H. apply bind_inv in H. destruct H as (p & E & H). apply gen_read_iff in E. unfold gen_run in H. apply bind_inv in H. destruct H as (c & Ec & H).
  apply check_inv in H. destruct H as [Hw H]. injection H as <- <-. exists p, c. destruct (populate_suits p c Ec) as [Hn Hs]. auto 8.
Qed.
Theorem gen_unknown : forall p, ~ In (g_name p) gen_names -> gen_populate p = Exit.
Proof.
  intros p H. unfold RgnModel.gen_populate.
  repeat match goal with |- (if String.eqb ?n ?s then _ else _) = _ => destruct (String.eqb_spec n s) as [Hs|?]; [exfalso; apply H; rewrite Hs; cbn; tauto|] end. reflexivity.
Qed.
Theorem gen_interaction : forall p which, g_name p = "interaction"%string -> g_args p = AInteraction which -> daejeon = None \/ which <> "Daejeon16"%string -> gen_populate p = Exit.
Proof.
  intros p which Hn Ha Hd. unfold RgnModel.gen_populate. rewrite Hn, Ha. cbn -[String.eqb zero_operator]. cbn [String.eqb Ascii.eqb Bool.eqb]. destruct daejeon as [f|]; [|reflexivity].
  destruct Hd as [Hd|Hd]; [discriminate|]. apply String.eqb_neq in Hd. rewrite Hd. reflexivity.
Qed.
Theorem gen_refused : forall ls, (forall p, ~ gen_input (has_daejeon daejeon) ls p) -> gen_main ls = Exit.
Proof. intros ls H. unfold RgnModel.gen_main. rewrite gen_read_refuses by exact H. reflexivity. Qed.

(** * relcm-gen *)
Theorem cm_made : forall ls p reg b steps, cm_input ls p -> c_name p = "LENPIC-NLOM1"%string -> c_args p = Some (reg, b, steps) ->
  gamma_fn tgamma -> quad_ok quad -> one_spin jhalf racah1 racah2 cj1 cj2 -> cross_antisymmetric racah12 ->
  LenSpec.cm_space (c_Nmax p) (cmspace_of B (c_Nmax p)) -> o_J0 (c_o p) = 1 -> o_g0 (c_o p) = 0 -> in_range (c_o p) 1 -> 0 <= o_T0_min (c_o p) -> o_T0_max (c_o p) <= 2 ->
  (0 < b)%R -> writable B (c_target p) = true ->
  exists c, cm_main ls = Ok (c_target p, RelFile (c_o p) (c_Nmax p) 0 c)
  /\ cm_stores (cmspace_of B (c_Nmax p)) (c_o p) c (m1_values tgamma quad racah1 racah2 racah12 crme b reg (Z.to_nat 3000)).
Proof.
  intros ls p reg b steps Hin Hn Ha Hg Hq H1 Hc Hsp HJ Hg0 Hr Hmin Hmax Hb Hw.
  destruct (m1_stored tgamma quad racah1 racah2 racah12 crme jhalf cj1 cj2 Hg Hq H1 Hc (c_Nmax p) (cmspace_of B (c_Nmax p)) (c_o p) b reg (Z.to_nat 3000)) as (c & E & S); try assumption; try lia.
  exists c. split; [|exact S]. unfold RgnModel.cm_main. rewrite (proj2 (cm_read_iff _ _) Hin). cbn [bind]. rewrite Hn, Ha, relcm_program, E. cbn [bind]. rewrite Hw. reflexivity.
Qed.
Theorem cm_only : forall ls name f, cm_main ls = Ok (name, f) -> exists p c, cm_input ls p /\ name = c_target p /\ f = RelFile (c_o p) (c_Nmax p) 0 c
  /\ c_name p = "LENPIC-NLOM1"%string /\ o_J0 (c_o p) = 1 /\ o_g0 (c_o p) = 0 /\ in_range (c_o p) 1 /\ writable B name = true.
Proof.
  intros ls name f H. unfold RgnModel.cm_main in H. apply bind_inv in H. destruct H as (p & E & H). apply cm_read_iff in E. apply bind_inv in H. destruct H as (c & Ec & H).
  apply check_inv in H. destruct H as [Hw H]. injection H as <- <-. exists p, c. split; [exact E|]. split; [reflexivity|]. split; [reflexivity|].
  destruct (String.eqb_spec (c_name p) "LENPIC-NLOM1") as [Hn|Hn]; [|rewrite relcm_unknown in Ec by exact Hn; discriminate]. split; [exact Hn|].
  rewrite Hn in Ec. destruct (c_args p) as [[[reg b] k]|]; [|discriminate]. rewrite relcm_program in Ec.
  destruct (Z.eq_dec (o_J0 (c_o p)) 1) as [->|N1]; [|rewrite m1_labels in Ec by auto; discriminate].
  destruct (Z.eq_dec (o_g0 (c_o p)) 0) as [->|N2]; [|rewrite m1_labels in Ec by auto; discriminate].
  destruct (Z_le_dec (o_T0_min (c_o p)) 1) as [L1|N3]; [|rewrite m1_labels in Ec by (unfold in_range; lia); discriminate].
  destruct (Z_le_dec 1 (o_T0_max (c_o p))) as [L2|N4]; [|rewrite m1_labels in Ec by (unfold in_range; lia); discriminate]. unfold in_range. auto.
Qed.
Theorem cm_refused : forall ls, (forall p, ~ cm_input ls p) -> cm_main ls = Exit.
Proof. intros ls H. unfold RgnModel.cm_main. rewrite cm_read_refuses by exact H. reflexivity. Qed.
End Generation.
