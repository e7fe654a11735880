(** Proofs for C121, C122: the files written by radial-gen. *)
From Coq Require Import String List ZArith Reals Bool Lia Lra.
From Verif Require Import Base BaseLemmas RMat H2Model MapModel OscModel OscSpec BlockModel BlockSpec BlockProof BlockFinal ObioModel ObioProof MixModel ObmModel ObmSpec ObmProof
  ObmFinal ObmFin2 ObmFin6 NatModel NatProof NatFinal RgModel RgSpec RgProof.
Import ListNotations.
Open Scope R_scope.

(** ** oscillator elements *)
Lemma half_sqrt : forall z x, 0 <= x -> IZR z = 4 * x -> 5 / 10 * sqrt (IZR z) = sqrt x.
Proof.
  intros z x Hx E. rewrite E. rewrite sqrt_mult by lra. replace (sqrt 4) with 2; [lra|]. symmetry. replace 4 with (2 * 2) by lra. apply sqrt_square. lra.
Qed.
Lemma full_sqrt : forall z x, 0 <= x -> IZR z = 4 * x -> sqrt (IZR z) = 2 * sqrt x.
Proof. intros z x Hx E. rewrite <- (half_sqrt z x Hx E). lra. Qed.
Lemma fsqrt_num : forall z, (0 <= z)%Z -> fsqrt z = Num (sqrt (IZR z)).
Proof. intros z H. unfold fsqrt. destruct (Z.ltb_spec z 0); [lia|reflexivity]. Qed.
Ltac zcase := repeat match goal with
  | |- context [(?a =? ?b)%Z] => destruct (Z.eqb_spec a b); try (exfalso; lia)
  | |- context [Z.max ?a ?b] => destruct (Z.max_spec a b) as [[? ->]|[? ->]]; try (exfalso; lia) end; cbn [orb andb].
Ltac pos := repeat apply Rmult_le_pos; repeat match goal with
  | |- 0 <= ?a + _ => apply Rplus_le_le_0_compat
  | |- 0 <= IZR _ => apply IZR_le; lia end; try lra.
Ltac izr := repeat rewrite ?plus_IZR, ?minus_IZR, ?mult_IZR, ?opp_IZR in *.
Lemma sqr_value : forall n l n' l' s, (0 <= n)%Z -> (0 <= l)%Z -> (0 <= n')%Z -> (0 <= l')%Z ->
  coordinate_sqr (2 * n + l) l (2 * n' + l') l' s = Num (square_value (IZR s) n l n' l').
Proof.
  intros n l n' l' s Hn Hl Hn' Hl'. unfold coordinate_sqr, square_value. cbn zeta.
  destruct (Z.eq_dec l l') as [->|N0].
  { unfold square_equal. zcase; try (subst; reflexivity).
    - rewrite fsqrt_num by nia. cbn [nscale]. f_equal. rewrite <- (half_sqrt ((2 * n' + l' + l' + 3) * (2 * n' + l' - l' + 2)) (IZR n * (IZR (n + l') + 1 / 2))); [lra|pos|].
      replace n with (n' + 1)%Z by lia. izr. field.
    - f_equal. subst n'. izr. lra.
    - rewrite fsqrt_num by nia. cbn [nscale]. f_equal. rewrite <- (half_sqrt ((2 * n' + l' - l') * (2 * n' + l' + l' + 1)) (IZR n' * (IZR (n' + l') + 1 / 2))); [lra|pos|].
      izr. field. }
  destruct (Z.eq_dec l (l' + 2)) as [->|N1].
  { unfold square_up. zcase; try (subst; reflexivity).
    - subst n'. rewrite fsqrt_num by nia. cbn [nscale]. f_equal. apply half_sqrt; [pos|]. izr. field.
    - rewrite fsqrt_num by nia. cbn [nscale]. f_equal. rewrite (full_sqrt _ (IZR n' * (IZR (n' + l') + 3 / 2))); [lra|pos|]. izr. field.
    - rewrite fsqrt_num by nia. cbn [nscale]. f_equal. apply half_sqrt; [pos|]. izr. field. }
  destruct (Z.eq_dec l' (l + 2)) as [->|N2].
  { unfold square_up. zcase; try (subst; reflexivity).
    - rewrite fsqrt_num by nia. cbn [nscale]. f_equal. apply half_sqrt; [pos|]. replace n' with (n - 2)%Z by lia. izr. field.
    - rewrite fsqrt_num by nia. cbn [nscale]. f_equal. rewrite (full_sqrt _ (IZR n * (IZR (n + l) + 3 / 2))); [lra|pos|]. replace n' with (n - 1)%Z by lia. izr. field.
    - subst n'. rewrite fsqrt_num by nia. cbn [nscale]. f_equal. apply half_sqrt; [pos|]. izr. field. }
  zcase; reflexivity.
Qed.
Lemma vec_value : forall n l n' l' s, (0 <= n)%Z -> (0 <= l)%Z -> (0 <= n')%Z -> (0 <= l')%Z -> one_step l' l ->
  coordinate (2 * n + l) l (2 * n' + l') l' s = Ok (Num (vector_value (IZR s) n l n' l')).
Proof.
  intros n l n' l' s Hn Hl Hn' Hl' H. unfold coordinate. assert ((l - l' =? -1)%Z || (l - l' =? 1)%Z = true) as ->.
  { destruct H as [->| ->]; apply Bool.orb_true_iff; [right|left]; apply Z.eqb_eq; lia. }
  cbn [cassert bind]. rewrite cdagger_value, clower_value by assumption. unfold nadd. cbn [nscale num_map2]. f_equal. f_equal. unfold vector_value. unfold Rdiv. ring.
Qed.
Lemma sign_IZR : forall t, sign_of t = IZR (if is_TK t then -1 else 1).
Proof. intros []; reflexivity. Qed.
Lemma radial_is_value : forall spline bt t order J0 g0 Tz0 a n b n' x, spin_half a -> spin_half b -> (0 <= n)%Z -> (0 <= n')%Z -> allowed (J0, g0, Tz0) a b ->
  radial_is spline bt t order J0 g0 n (ll_l a) n' (ll_l b) x -> radial_value spline bt t order J0 g0 n (ll_l a) n' (ll_l b) x.
Proof.
  intros spline bt t order J0 g0 Tz0 a n b n' x Ha Hb Hn Hn' Hal H. unfold radial_value, radial_element. destruct H as [->| -> [= -> -> ->]| -> -> HJ ->|x N0 N1 Hx].
  - cbn [Z.eqb]. destruct ((n =? n')%Z && (ll_l a =? ll_l b)%Z); reflexivity.
  - cbn [Z.eqb Pos.eqb andb]. rewrite sign_IZR. apply vec_value; auto; [apply Ha|apply Hb|]. destruct Hal as (H1 & H2 & _). destruct Ha as (A1 & A2 & A3), Hb as (B1 & B2 & B3).
    unfold coupled in H1. destruct H2 as [m Hm]. unfold one_step. lia.
  - cbn [Z.eqb Pos.eqb andb]. assert ((J0 =? 0)%Z || (J0 =? 2)%Z = true) as ->.
    { destruct HJ as [->| ->]; reflexivity. }
    cbn [Z.eqb Pos.eqb andb]. rewrite sign_IZR, sqr_value; auto; [apply Ha|apply Hb].
  - destruct (Z.eqb_spec order 0) as [|_]; [contradiction|]. destruct bt.
    + destruct (N1 eq_refl) as [N2 N3]. assert ((order =? 1)%Z && (J0 =? 1)%Z && (g0 =? 1)%Z = false) as ->.
      { apply Bool.not_true_is_false. intros E. apply Bool.andb_true_iff in E. destruct E as [E E3]. apply Bool.andb_true_iff in E. destruct E as [E E2]. apply Z.eqb_eq in E, E2, E3. congruence. }
      assert ((order =? 2)%Z && ((J0 =? 0)%Z || (J0 =? 2)%Z) && (g0 =? 0)%Z = false) as ->.
      { apply Bool.not_true_is_false. intros E. apply Bool.andb_true_iff in E. destruct E as [E E3]. apply Bool.andb_true_iff in E. destruct E as [E E2].
        apply Bool.orb_true_iff in E2. apply N3. split; [apply Z.eqb_eq; exact E|]. split; [destruct E2 as [E2|E2]; apply Z.eqb_eq in E2; auto|apply Z.eqb_eq; exact E3]. }
      unfold is_TK. rewrite Hx. reflexivity.
    + unfold is_TK. rewrite Hx. reflexivity.
Qed.

(** ** orbital lists and their spaces *)
Lemma space_orbital : forall (os : list (oinfo R)) I i a n, orbital_at (forget (mk_wspace os)) I i a n -> exists o, In o os /\ oi_lab o = a /\ oi_n o = n.
Proof.
  intros os I i a n (ns & H1 & H2). rewrite forget_mk in H1. apply nth_error_In in H1. apply in_map_iff in H1. destruct H1 as (a' & [= -> <-] & _).
  apply nth_error_In in H2. unfold states_of in H2. rewrite map_map in H2. apply in_map_iff in H2. destruct H2 as (o & <- & Ho). apply filter_In in Ho. destruct Ho as [Ho El].
  apply llabel_eqb_ok in El. exists o. auto.
Qed.
Lemma proper_orbital : forall os I i a n, proper os -> orbital_at (forget (mk_wspace os)) I i a n -> spin_half a /\ (0 <= n)%Z.
Proof.
  intros os I i a n Hp H. destruct (space_orbital _ _ _ _ _ H) as (o & Ho & <- & <-). unfold proper in Hp. rewrite Forall_forall in Hp. exact (Hp o Ho).
Qed.
Lemma scalar_labels : forall a b, spin_half a -> spin_half b -> (allowed (0, 0, 0)%Z a b <-> a = b).
Proof.
  intros [s l j] [s' l' j'] (A1 & A2 & A3) (B1 & B2 & B3). cbn [ll_sp ll_l ll_2j] in *. unfold allowed, coupled, two_tz. cbn [ll_sp ll_l ll_2j]. split.
  - intros (H1 & [m H2] & H3). assert (j = j') by lia. assert (l = l') by lia. assert (s = s') by (destruct s, s'; cbn in H3; lia || reflexivity). congruence.
  - intros [= -> -> ->]. repeat split; try lia. exists l'. lia.
Qed.

Section Files.
Variable spline : spline_me.
Variable crme : Z -> Z -> Z -> Z -> Z -> R.
Variable am_rme : am_type -> Z -> Z -> Z -> Z -> R.
Variable inv_sqrt_4pi : R.
Notation build := (build spline crme am_rme inv_sqrt_4pi).
Notation build_blocks := (build_blocks spline crme am_rme inv_sqrt_4pi).

(** a target whose bra and ket orbitals are those of one file *)
Lemma build_one : forall fs kf out kb m order q os r, fs kf = Some (FOrbitals os) ->
  let sp := forget (mk_wspace os) in let t := RTarget kf kf out kb kb 1 (Some (m, order, q)) in
  build_blocks t m order q sp sp (sectors_of sp sp q) = Ok r -> tensor_op sp q (sectors_of sp sp q) r ->
  build fs t = Ok (put fs out (FElements (RFile (is_radial m) q (mk_wspace os) (mk_wspace os) (sectors_of sp sp q) r))).
Proof.
  intros fs kf out kb m order q os r Hf sp t E [O _]. unfold RgModel.build, read_orbitals. cbn [t_bra t_ket t]. rewrite Hf. cbn [bind t_op t get]. fold sp. rewrite E. cbn [bind].
  rewrite write_rfile_op; [reflexivity|]. exact O.
Qed.
(** ... whose blocks are those of an operator *)
Lemma build_file : forall fs kf out kb m order q os g, fs kf = Some (FOrbitals os) ->
  let sp := forget (mk_wspace os) in let t := RTarget kf kf out kb kb 1 (Some (m, order, q)) in
  (exists r, build_blocks t m order q sp sp (sectors_of sp sp q) = Ok r /\ tensor_op sp q (sectors_of sp sp q) r /\ elements sp q (sectors_of sp sp q) r g) ->
  exists f, build fs t = Ok (put fs out (FElements f)) /\ operator_file os (is_radial m) q g f.
Proof.
  intros fs kf out kb m order q os g Hf sp t (r & E & O & A). eexists. split; [exact (build_one fs kf out kb m order q os r Hf E O)|]. unfold operator_file. cbn [rf_radial rf_q rf_bra rf_ket rf_sectors rf_blocks]. split; [reflexivity|]. split; [reflexivity|]. split; [reflexivity|]. split; [reflexivity|]. split; [exact O|exact A].
Qed.
Lemma solid_blocks : forall bt t order J0 g0 Tz0 os rad, proper os -> radial_elements spline bt t order (J0, g0, Tz0) os rad ->
  let sp := forget (mk_wspace os) in let q := (J0, g0, Tz0) in
  exists r, solid_harmonic spline crme bt t order sp q (sectors_of sp sp q) = Ok r /\ tensor_op sp q (sectors_of sp sp q) r
  /\ elements sp q (sectors_of sp sp q) r (fun a n b n' => rad a n b n' * crme (ll_l a) (ll_2j a) (ll_l b) (ll_2j b) J0).
Proof.
  intros bt t order J0 g0 Tz0 os rad Hp Hr sp q. apply solid_ok. intros I i K k a n b n' H1 H2 Hal.
  destruct (proper_orbital _ _ _ _ _ Hp H1) as [S1 N1]. destruct (proper_orbital _ _ _ _ _ Hp H2) as [S2 N2].
  apply (radial_is_value _ _ _ _ _ _ Tz0); auto. destruct (space_orbital _ _ _ _ _ H1) as (o & Ho & <- & <-). destruct (space_orbital _ _ _ _ _ H2) as (o' & Ho' & <- & <-).
  exact (Hr o o' Ho Ho' Hal).
Qed.
Theorem kinematic_file : forall fs kf out kb t order J0 g0 Tz0 os rad, fs kf = Some (FOrbitals os) -> proper os -> radial_elements spline kb t order (J0, g0, Tz0) os rad ->
  exists f, build fs (RTarget kf kf out kb kb 1 (Some (MKinematic t, order, (J0, g0, Tz0)))) = Ok (put fs out (FElements f))
  /\ operator_file os false (J0, g0, Tz0) (fun a n b n' => rad a n b n' * crme (ll_l a) (ll_2j a) (ll_l b) (ll_2j b) J0) f.
Proof.
  intros fs kf out kb t order J0 g0 Tz0 os rad Hf Hp Hr. apply (build_file fs kf out kb (MKinematic t) order (J0, g0, Tz0) os _ Hf). exact (solid_blocks kb t order J0 g0 Tz0 os rad Hp Hr).
Qed.
Theorem solid_file : forall fs kf out kb t order J0 g0 Tz0 os rad, fs kf = Some (FOrbitals os) -> proper os -> radial_elements spline kb t order (J0, g0, Tz0) os rad ->
  exists f, build fs (RTarget kf kf out kb kb 1 (Some (MSolid t, order, (J0, g0, Tz0)))) = Ok (put fs out (FElements f))
  /\ operator_file os false (J0, g0, Tz0) (fun a n b n' => sqrt (IZR (2 * order + 1)) * inv_sqrt_4pi * (rad a n b n' * crme (ll_l a) (ll_2j a) (ll_l b) (ll_2j b) J0)) f.
Proof.
  intros fs kf out kb t order J0 g0 Tz0 os rad Hf Hp Hr. apply (build_file fs kf out kb (MSolid t) order (J0, g0, Tz0) os _ Hf).
  destruct (solid_blocks kb t order J0 g0 Tz0 os rad Hp Hr) as (r & E & O & A). set (sp := forget (mk_wspace os)) in *.
  destruct (update_ok sp (fun _ _ => Ok (hat order * inv_sqrt_4pi)) (fun _ _ => hat order * inv_sqrt_4pi) _ r (proj1 O)) as (m & Em & Om & Am); [reflexivity|].
  exists m. split; [unfold RgModel.build_blocks; cbn [t_kb]; rewrite E; exact Em|]. split; [split; [exact Om|reflexivity]|].
  intros I i K k a n b n' H1 H2. destruct (A I i K k a n b n' H1 H2) as [A1 A2]. split; intros Hal; rewrite Am; [rewrite (A1 Hal); unfold hat; ring|rewrite (A2 Hal); ring].
Qed.
Theorem radial_file : forall fs kf out kb t order J0 g0 Tz0 os rad, fs kf = Some (FOrbitals os) -> proper os -> radial_elements spline kb t order (J0, g0, Tz0) os rad ->
  exists f, build fs (RTarget kf kf out kb kb 1 (Some (MRadial t, order, (J0, g0, Tz0)))) = Ok (put fs out (FElements f)) /\ operator_file os true (J0, g0, Tz0) rad f.
Proof.
  intros fs kf out kb t order J0 g0 Tz0 os rad Hf Hp Hr. apply (build_file fs kf out kb (MRadial t) order (J0, g0, Tz0) os _ Hf).
  set (sp := forget (mk_wspace os)) in *. set (q := (J0, g0, Tz0)) in *. set (s := sectors_of sp sp q).
  destruct (real_blocks_ok sp sp s (radial_element spline kb (is_TK t) order J0 g0)
    (fun I i K k => match nth_error sp I, nth_error sp K with Some x, Some y =>
       match nth_error (snd x) i, nth_error (snd y) k with Some n, Some n' => rad (fst x) n (fst y) n' | _, _ => 0 end | _, _ => 0 end)
    (ObmProof.sectors_nodup _ _ _) (sectors_range _ _ _)) as (bs & ms & E1 & E2 & O & A).
  { intros I i K k a n b n' Hin H1 H2. assert (H1' := H1). assert (H2' := H2). destruct H1 as (ns & X1 & X2). destruct H2 as (ns' & Y1 & Y2). rewrite X1, Y1. cbn [fst snd]. rewrite X2, Y2.
    apply (sectors_allowed sp q I K _ _ X1 Y1) in Hin. destruct (proper_orbital _ _ _ _ _ Hp H1') as [S1 N1]. destruct (proper_orbital _ _ _ _ _ Hp H2') as [S2 N2].
    apply (radial_is_value spline kb t order J0 g0 Tz0); auto. destruct (space_orbital _ _ _ _ _ H1') as (o & Ho & <- & <-). destruct (space_orbital _ _ _ _ _ H2') as (o' & Ho' & <- & <-).
    exact (Hr o o' Ho Ho' Hin). }
  exists ms. split; [unfold RgModel.build_blocks, q, radial_operator; cbn [t_kb]; fold q; fold s; rewrite E1; exact E2|]. split; [split; [exact O|reflexivity]|].
  intros I i K k a n b n' H1 H2. destruct (orbital_state _ _ _ _ _ H1) as (ns & X1 & X2 & _ & L1 & D1). destruct (orbital_state _ _ _ _ _ H2) as (ns' & Y1 & Y2 & _ & L2 & D2). split; intros Hal.
  - rewrite A; [|apply (sectors_allowed sp q I K _ _ X1 Y1); exact Hal|lia|lia]. rewrite X1, Y1. cbn [fst snd]. rewrite X2, Y2. reflexivity.
  - apply entry_absent. unfold s. rewrite (sectors_allowed sp q I K _ _ X1 Y1). exact Hal.
Qed.
(** what the program does with the elements is complete: without radial elements there is no file (a number that is none) *)
Lemma distinct_once : forall os, once os -> distinct_n (forget (mk_wspace os)).
Proof.
  intros os H. unfold distinct_n. rewrite forget_mk, Forall_map, Forall_forall. intros a _. cbn [snd]. unfold states_of. rewrite map_map. cbn [fst].
  unfold once in H. induction os as [|o os IH]; [constructor|]. cbn [map] in H. apply NoDup_cons_iff in H. destruct H as [H1 H2]. cbn [filter]. destruct (llabel_eqb (oi_lab o) a) eqn:E; [|apply IH; exact H2].
  cbn [map]. constructor; [|apply IH; exact H2]. intros H. apply in_map_iff in H. destruct H as (o' & E' & Ho'). apply filter_In in Ho'. destruct Ho' as [Ho' El]. apply llabel_eqb_ok in E, El.
  apply H1. apply in_map_iff. exists o'. split; [congruence|exact Ho'].
Qed.
Theorem am_file : forall fs kf out kb t os, fs kf = Some (FOrbitals os) -> once os -> same_n os ->
  exists f, build fs (RTarget kf kf out kb kb 1 (Some (MAm t, 1, (1, 0, 0))%Z)) = Ok (put fs out (FElements f))
  /\ operator_file os false (1, 0, 0)%Z (fun a n b n' => if (n =? n')%Z then am_rme t (ll_l a) (ll_2j a) (ll_l b) (ll_2j b) else 0) f.
Proof.
  intros fs kf out kb t os Hf Ho Ha. apply (build_file fs kf out kb (MAm t) 1 (1, 0, 0)%Z os _ Hf). exact (am_ok am_rme t _ Ha (distinct_once os Ho)).
Qed.
Lemma proper_space : forall os, proper os -> orbital_space (forget (mk_wspace os)).
Proof.
  intros os Hp. unfold orbital_space. rewrite Forall_forall. intros [a ns] Hin. destruct (In_nth_error _ _ Hin) as [I HI]. cbn [fst snd].
  assert (forall i n, nth_error ns i = Some n -> spin_half a /\ (0 <= n)%Z) as H.
  { intros i n Hi. apply (proper_orbital os I i); [exact Hp|]. exists ns. auto. }
  split; [|rewrite Forall_forall; intros n Hn; destruct (In_nth_error _ _ Hn) as [i Hi]; exact (proj2 (H i n Hi))].
  destruct ns as [|n ns]; [|exact (proj1 (H 0%nat n eq_refl))]. exfalso.
  assert (I < length (mk_wspace os))%nat by (rewrite <- (map_length (fun x => (fst x, map fst (snd x)))); apply nth_error_Some; unfold forget in HI; congruence).
  pose proof (forget_dim R os I H0) as D. unfold sub_dim in D. rewrite HI in D. cbn in D. lia.
Qed.
Theorem am_square_file : forall fs kf out kb t os, fs kf = Some (FOrbitals os) -> proper os -> once os ->
  exists f, build fs (RTarget kf kf out kb kb 1 (Some (MAm t, 2, (0, 0, 0))%Z)) = Ok (put fs out (FElements f))
  /\ operator_file os false (0, 0, 0)%Z (fun a n b n' => if (n =? n')%Z then casimir t a else 0) f.
Proof.
  intros fs kf out kb t os Hf Hp Ho. apply (build_file fs kf out kb (MAm t) 2 (0, 0, 0)%Z os _ Hf).
  destruct (am_square_ok t _ (proper_space os Hp) (mk_distinct os)) as (r & E & O & A). exists r. split; [exact E|]. split; [exact O|].
  intros I i K k a n b n' H1 H2. rewrite (A I i K k a n H1 (orbital_sub _ _ _ _ _ H2)). destruct (proper_orbital _ _ _ _ _ Hp H1) as [S1 _]. destruct (proper_orbital _ _ _ _ _ Hp H2) as [S2 _].
  rewrite (scalar_labels a b S1 S2). destruct (orbital_state _ _ _ _ _ H1) as (ns & X1 & X2 & X3 & L1 & D1). destruct (orbital_state _ _ _ _ _ H2) as (ns' & Y1 & Y2 & Y3 & L2 & D2). split.
  - intros <-. assert (I = K).
    { apply (label_unique (forget (mk_wspace os)) I K a (mk_distinct os)); unfold label_of; [rewrite X1|rewrite Y1]; reflexivity. }
    subst K. rewrite X1 in Y1. injection Y1 as <-. rewrite Nat.eqb_refl. cbn [andb]. destruct (Z.eqb_spec n n') as [<-|Nn].
    + pose proof (distinct_once os Ho) as Hd. unfold distinct_n in Hd. rewrite Forall_forall in Hd. pose proof (Hd _ (nth_error_In _ _ X1)) as Hd'. cbn [snd] in Hd'.
      rewrite NoDup_nth_error in Hd'. rewrite (Hd' i k L1) by congruence. rewrite Nat.eqb_refl. reflexivity.
    + destruct (Nat.eqb_spec i k) as [->|_]; [congruence|reflexivity].
  - intros Nab. destruct (Nat.eqb_spec I K) as [->|_]; [|reflexivity]. rewrite X1 in Y1. congruence.
Qed.
Theorem isospin_file : forall fs kf out kb Tz0 os, fs kf = Some (FOrbitals os) -> once os -> same_n os ->
  exists f, build fs (RTarget kf kf out kb kb 1 (Some (MIsospin, 0, (0, 0, Tz0))%Z)) = Ok (put fs out (FElements f))
  /\ operator_file os false (0, 0, Tz0)%Z (fun a n b n' => if (n =? n')%Z then if (Tz0 =? 0)%Z then match ll_sp b with SP => 1 / 2 | SN => - (1 / 2) end else 1 else 0) f.
Proof.
  intros fs kf out kb Tz0 os Hf Ho Ha. apply (build_file fs kf out kb MIsospin 0 (0, 0, Tz0)%Z os _ Hf). exact (isospin_ok _ Tz0 Ha (distinct_once os Ho)).
Qed.
(** overlaps *)
Theorem xform_file : forall fs bf kf out bb kb c bo ko g, fs bf = Some (FOrbitals bo) -> fs kf = Some (FOrbitals ko) -> proper bo -> proper ko ->
  (forall o o', In o bo -> In o' ko -> oi_lab o = oi_lab o' -> overlap_is spline bb kb c (ll_l (oi_lab o)) (oi_n o) (oi_n o') (g (oi_lab o) (oi_n o) (oi_n o'))) ->
  exists f, build fs (RTarget bf kf out bb kb c (Some (MXform, 0, (0, 0, 0))%Z)) = Ok (put fs out (FElements f)) /\ overlaps_file bo ko g f.
Proof.
  intros fs bf kf out bb kb c bo ko g Hb Hk Pb Pk Hg. set (bs := forget (mk_wspace bo)). set (ks := forget (mk_wspace ko)). set (s := sectors_of bs ks (0, 0, 0)%Z).
  destruct (real_blocks_ok bs ks s (fun bn bl kn kl => Ok (overlap_element spline bb kb c (is_1 c) bn bl kn kl))
    (fun I i K k => match nth_error bs I, nth_error ks K with Some x, Some y =>
       match nth_error (snd x) i, nth_error (snd y) k with Some n, Some n' => g (fst x) n n' | _, _ => 0 end | _, _ => 0 end)
    (ObmProof.sectors_nodup _ _ _) (sectors_range _ _ _)) as (bl & ms & E1 & E2 & O & A).
  { intros I i K k a n b n' Hin H1 H2. assert (H1' := H1). assert (H2' := H2). destruct H1 as (ns & X1 & X2). destruct H2 as (ns' & Y1 & Y2). rewrite X1, Y1. cbn [fst snd]. rewrite X2, Y2.
    apply (sectors_allowed2 bs ks (0, 0, 0)%Z I K _ _ X1 Y1) in Hin. cbn [fst] in Hin. apply scalar_labels in Hin; [|exact (proj1 (proper_orbital _ _ _ _ _ Pb H1'))|exact (proj1 (proper_orbital _ _ _ _ _ Pk H2'))].
    subst b. f_equal. destruct (space_orbital _ _ _ _ _ H1') as (o & Ho & El & En). destruct (space_orbital _ _ _ _ _ H2') as (o' & Ho' & El' & En').
    specialize (Hg o o' Ho Ho' (eq_trans El (eq_sym El'))). rewrite El, En, En' in Hg. unfold overlap_element, is_1. destruct Hg as [Eb Ec|x Hne Hx].
    - subst bb c. destruct (Req_EM_T 1 1) as [_|N]; [|contradiction]. replace (radial_basis_eqb kb kb) with true by (destruct kb; reflexivity). cbn [andb]. rewrite Z.eqb_refl, Bool.andb_true_r.
      destruct (n =? n')%Z; reflexivity.
    - destruct (Req_EM_T c 1) as [Ec|Nc]; cbn [andb]; [|exact Hx]. destruct bb, kb; cbn [radial_basis_eqb]; try exact Hx; destruct Hne; congruence. }
  eexists. split.
  - unfold RgModel.build, read_orbitals. cbn [t_bra t_ket]. rewrite Hb, Hk. cbn [bind t_op get]. fold bs ks. fold s. unfold RgModel.build_blocks, radial_overlaps. cbn [t_bb t_kb t_scale Z.eqb cassert bind].
    rewrite E1. cbn [bind]. rewrite E2. cbn [bind]. rewrite write_rfile_op by exact O. reflexivity.
  - repeat split; try apply O. destruct H as (ns & X1 & X2), H0 as (ns' & Y1 & Y2). cbn [rf_sectors rf_blocks]. fold bs in X1. fold ks in Y1.
    + intros ->. rewrite A; [rewrite X1, Y1; cbn [fst snd]; rewrite X2, Y2; reflexivity| | |].
      * apply (sectors_allowed2 bs ks (0, 0, 0)%Z I K _ _ X1 Y1). cbn [fst]. assert (orbital_at ks K k b n') as Hk' by (exists ns'; auto). apply scalar_labels; [| |reflexivity]; exact (proj1 (proper_orbital _ _ _ _ _ Pk Hk')).
      * unfold sub_dim. rewrite X1. apply nth_error_Some. congruence.
      * unfold sub_dim. rewrite Y1. apply nth_error_Some. congruence.
    + destruct H as (ns & X1 & X2), H0 as (ns' & Y1 & Y2). cbn [rf_sectors rf_blocks]. intros Nab. apply entry_absent. unfold s. rewrite (sectors_allowed2 bs ks (0, 0, 0)%Z I K _ _ X1 Y1). cbn [fst]. intros Hal.
      apply Nab. apply scalar_labels; [| |exact Hal].
      * apply (proper_orbital bo I i a n Pb). exists ns. auto.
      * apply (proper_orbital ko K k b n' Pk). exists ns'. auto.
Qed.
End Files.
