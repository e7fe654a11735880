(** Lemmas for C83-C87: ladder operators, the tables and channels of obmixer, files read by ew-gen. *)
From Coq Require Import String List ZArith Reals Bool Lra Lia.
From Verif Require Import Base BaseLemmas RMat H2Model MapModel OscModel OscSpec OscProof BlockModel BlockSpec BlockProof BlockFinal ObioModel ObioProof ObioFinal
  MixModel MixFinal ObmModel ObmSpec ObmProof ObmFinal ObmFin2 ObmFin4 ObmFin5.
Import ListNotations.
Open Scope R_scope.
Open Scope outcome_scope.

Lemma cdagger_value : forall n l n' l', (0 <= n)%Z -> (0 <= l)%Z -> (0 <= n')%Z -> (0 <= l')%Z -> cdagger (2 * n + l) l (2 * n' + l') l' = Num (raise_value n l n' l').
Proof.
  intros n l n' l' H1 H2 H3 H4. unfold cdagger, raise_value. cbn zeta.
  destruct (Z.eqb_spec (2 * n + l - (2 * n' + l')) 1), (Z.eqb_spec (2 * n + l) (2 * n' + l' + 1)); try lia; try reflexivity.
  destruct (Z.eqb_spec (l - l') 1), (Z.eqb_spec l (l' + 1)); try lia.
  - unfold fsqrt. destruct (Z.ltb_spec (2 * n' + l' + l' + 3) 0); [lia|reflexivity].
  - destruct (Z.eqb_spec (l - l') (-1)), (Z.eqb_spec l (l' - 1)); try lia; try reflexivity.
    unfold fsqrt. destruct (Z.ltb_spec (2 * n' + l' - l' + 2) 0); [lia|]. cbn [nscale]. f_equal. ring.
Qed.
Lemma clower_value : forall n l n' l', (0 <= n)%Z -> (0 <= l)%Z -> (0 <= n')%Z -> (0 <= l')%Z -> clower (2 * n + l) l (2 * n' + l') l' = Num (raise_value n' l' n l).
Proof.
  intros n l n' l' H1 H2 H3 H4. rewrite <- (cdagger_value n' l' n l) by assumption. 
  destruct (OscProof.ladder (2 * n' + l') l' (2 * n + l) l) as (x & E1 & E2 & _).
  - split; [lia|]. replace (2 * n' + l' - l')%Z with (2 * n')%Z by lia. apply Z.even_mul.
  - split; [lia|]. replace (2 * n + l - l)%Z with (2 * n)%Z by lia. apply Z.even_mul.
  - rewrite E1, E2. reflexivity.
Qed.
Lemma orbital_ho : forall sp I i a n, orbital_space sp -> orbital_at sp I i a n -> (0 <= n)%Z /\ (0 <= ll_l a)%Z.
Proof.
  intros sp I i a n H (ns & E1 & E2). unfold orbital_space in H. rewrite Forall_forall in H. destruct (H _ (nth_error_In _ _ E1)) as [S F]. cbn in S, F.
  rewrite Forall_forall in F. split; [exact (F _ (nth_error_In _ _ E2))|exact (proj1 S)].
Qed.
Section Ladder.
Variable crme : Z -> Z -> Z -> Z -> Z -> R.
Theorem ladder_ok : forall up sp J0 g0 Tz0, orbital_space sp ->
  exists r, ladder crme BOscillator up sp (J0, g0, Tz0) (sectors_of sp sp (J0, g0, Tz0)) = Ok r /\ tensor_op sp (J0, g0, Tz0) (sectors_of sp sp (J0, g0, Tz0)) r
  /\ elements sp (J0, g0, Tz0) (sectors_of sp sp (J0, g0, Tz0)) r
       (fun a n b n' => crme (ll_l a) (ll_2j a) (ll_l b) (ll_2j b) J0 * ladder_value up n (ll_l a) n' (ll_l b)).
Proof.
  intros up sp J0 g0 Tz0 Hsp. set (q := (J0, g0, Tz0)). set (s := sectors_of sp sp q). unfold ObmModel.ladder, q. cbn [radial_basis_eqb cassert bind]. fold q.
  destruct (sector_blocks_ok sp (fun b k =>
    fill 0 (length (snd b)) (length (snd k)) (fun i j =>
      bn <- get (nth_error (snd b) i) ;; kn <- get (nth_error (snd k) j) ;;
      let bl := ll_l (fst b) in let kl := ll_l (fst k) in
      let bN := (2 * bn + bl)%Z in let kN := (2 * kn + kl)%Z in
      x <- real (if up then cdagger bN bl kN kl else clower bN bl kN kl) ;;
      Ok (angular crme J0 (fst b) (fst k) * x)))
    (fun I i K k => match nth_error sp I, nth_error sp K with Some x, Some y =>
        match nth_error (snd x) i, nth_error (snd y) k with Some n, Some n' => crme (ll_l (fst x)) (ll_2j (fst x)) (ll_l (fst y)) (ll_2j (fst y)) J0 * ladder_value up n (ll_l (fst x)) n' (ll_l (fst y)) | _, _ => 0 end
      | _, _ => 0 end) s (sectors_nodup _ _ _) (sectors_range _ _ _)) as (r & E & O & A).
  - intros I K x y Hin Hx Hy.
    destruct (fill_ok R 0 (length (snd x)) (length (snd y)) (fun i j =>
      bn <- get (nth_error (snd x) i) ;; kn <- get (nth_error (snd y) j) ;;
      let bl := ll_l (fst x) in let kl := ll_l (fst y) in
      let bN := (2 * bn + bl)%Z in let kN := (2 * kn + kl)%Z in
      x0 <- real (if up then cdagger bN bl kN kl else clower bN bl kN kl) ;;
      Ok (angular crme J0 (fst x) (fst y) * x0)) (fun i k => 
        match nth_error (snd x) i, nth_error (snd y) k with Some n, Some n' => crme (ll_l (fst x)) (ll_2j (fst x)) (ll_l (fst y)) (ll_2j (fst y)) J0 * ladder_value up n (ll_l (fst x)) n' (ll_l (fst y)) | _, _ => 0 end))
      as (m & Em & Rm & Cm & Am).
    { intros i j Hi Hj. destruct (nth_error (snd x) i) as [n|] eqn:En; [|apply nth_error_None in En; lia]. destruct (nth_error (snd y) j) as [n'|] eqn:En'; [|apply nth_error_None in En'; lia].
      cbn [get bind]. destruct x as [a ns], y as [b ns']. cbn [fst snd] in *.
      destruct (orbital_ho sp I i a n Hsp) as [P1 P2]; [exists ns; auto|]. destruct (orbital_ho sp K j b n' Hsp) as [P3 P4]; [exists ns'; auto|]. cbn zeta.
      destruct up; [rewrite cdagger_value by assumption|rewrite clower_value by assumption]; reflexivity. }
    exists m. split; [exact Em|]. split; [exact Rm|]. split; [exact Cm|]. intros i k Hi Hk. rewrite Hx, Hy. apply Am; assumption.
  - exists r. split; [exact E|]. split; [split; [exact O|reflexivity]|]. intros I i K k a n b n' H1 H2.
    destruct (orbital_state _ _ _ _ _ H1) as (ns & E1 & N1 & _ & L1 & D1). destruct (orbital_state _ _ _ _ _ H2) as (ns' & E2 & N2 & _ & L2 & D2). split; intros Hal.
    + rewrite A; [rewrite E1, E2; cbn [fst snd]; rewrite N1, N2; reflexivity|apply (sectors_allowed sp q I K _ _ E1 E2); exact Hal|lia|lia].
    + apply entry_absent. intros Hin. apply (sectors_allowed sp q I K _ _ E1 E2) in Hin. exact (Hal Hin).
Qed.
Theorem ladder_refused : forall bt up sp q s, bt <> BOscillator -> ObmModel.ladder crme bt up sp q s = AssertFail.
Proof. intros bt up sp [[J0 g0] Tz0] s H. destruct bt; [congruence|reflexivity]. Qed.
End Ladder.
Theorem isospin_refused : forall sp J0 g0 Tz0 s, (J0, g0) <> (0, 0)%Z -> isospin sp (J0, g0, Tz0) s = AssertFail.
Proof. intros sp J0 g0 Tz0 s H. unfold isospin. destruct (Z.eqb_spec J0 0); [|reflexivity]. destruct (Z.eqb_spec g0 0); [|reflexivity]. subst. congruence. Qed.

(** ** the tables *)
Ltac table := intros id x; cbn [assoc In]; split;
  [intros H; repeat match type of H with context [String.eqb id ?n] => destruct (String.eqb_spec id n); [subst; injection H as <-; tauto|] end; discriminate
  |intros H; repeat (destruct H as [H|H]; [injection H as <- <-; reflexivity|]); destruct H].
Theorem kinematic_table : forall id x, assoc kinematic id = Some x <-> In (id, x)
  [("identity"%string, (GRadial TOther, 0%Z, (0, 0, 0)%Z)); ("r"%string, (GRadial TR, 1%Z, (1, 1, 0)%Z)); ("ik"%string, (GRadial TK, 1%Z, (1, 1, 0)%Z));
   ("r.r"%string, (GRadial TR, 2%Z, (0, 0, 0)%Z)); ("ik.ik"%string, (GRadial TK, 2%Z, (0, 0, 0)%Z))].
Proof. unfold kinematic. table. Qed.
Theorem ladder_table : forall id x, assoc ladders id = Some x <-> In (id, x) [("c+"%string, (GLadder true, 1%Z, (1, 1, 0)%Z)); ("c"%string, (GLadder false, 1%Z, (1, 1, 0)%Z))].
Proof. unfold ladders. table. Qed.
Theorem angular_table : forall id x, assoc angular_momenta id = Some x <-> In (id, x)
  [("l"%string, (GAm AOrbital, 1%Z, (1, 0, 0)%Z)); ("s"%string, (GAm ASpin, 1%Z, (1, 0, 0)%Z)); ("j"%string, (GAm ATotal, 1%Z, (1, 0, 0)%Z));
   ("l2"%string, (GAm AOrbital, 2%Z, (0, 0, 0)%Z)); ("s2"%string, (GAm ASpin, 2%Z, (0, 0, 0)%Z)); ("j2"%string, (GAm ATotal, 2%Z, (0, 0, 0)%Z))].
Proof. unfold angular_momenta. table. Qed.
Theorem isospin_table : forall id x, assoc isospins id = Some x <-> In (id, x)
  [("tz"%string, (GIso, 1%Z, (0, 0, 0)%Z)); ("t+"%string, (GIso, 1%Z, (0, 0, 1)%Z)); ("t-"%string, (GIso, 1%Z, (0, 0, -1)%Z))].
Proof. unfold isospins. table. Qed.

(** ** channels of obmixer *)
Section Gen.
Variable spline : spline_me.
Variable crme : Z -> Z -> Z -> Z -> Z -> R.
Variable am_rme : am_type -> Z -> Z -> Z -> Z -> R.
Variable inv_sqrt_4pi : R.
Notation gen := (generated_channel spline crme am_rme inv_sqrt_4pi).
Theorem generated_space : forall rp id t order q sp ops, gen rp id t order q (Some sp) ops = gen (Run (rn_basis rp) (rn_length rp) sp) id t order q None ops.
Proof. reflexivity. Qed.
Lemma gen_intro : forall rp id t order q space ops m, id <> "identity"%string -> assoc ops id = None -> let sp := channel_space rp space in
  match t with GRadial _ => False | GAm a => (order = 1%Z /\ angular_momentum am_rme a sp q (sectors_of sp sp q) = Ok m) \/ (order = 2%Z /\ angular_momentum_squared a sp q (sectors_of sp sp q) = Ok m)
     | GIso => isospin sp q (sectors_of sp sp q) = Ok m | GLadder up => ObmModel.ladder crme (rn_basis rp) up sp q (sectors_of sp sp q) = Ok m end ->
  gen rp id t order q space ops = Ok ((id, data_of sp q (sectors_of sp sp q) m) :: ops).
Proof.
  intros rp id t order q space ops m Hid Hno sp H. unfold generated_channel. rewrite Hno. change (match space with Some sp => sp | None => rn_space rp end) with sp. cbn zeta.
  unfold generate_blocks. apply String.eqb_neq in Hid. rewrite Hid. destruct t as [rt|a| |up]; [destruct H| | |].
  - destruct H as [[-> E]|[-> E]]; cbn [Z.eqb Pos.eqb]; rewrite E; cbn [bind]; unfold add_new; rewrite Hno; reflexivity.
  - rewrite H. cbn [bind]. unfold add_new. rewrite Hno. reflexivity.
  - rewrite H. cbn [bind]. unfold add_new. rewrite Hno. reflexivity.
Qed.
Theorem generated_am : forall rp id t space ops, let sp := channel_space rp space in id <> "identity"%string -> assoc ops id = None -> aligned sp -> distinct_n sp ->
  exists s m, gen rp id (GAm t) 1 (1, 0, 0)%Z space ops = Ok ((id, data_of sp (1, 0, 0)%Z s m) :: ops) /\ tensor_op sp (1, 0, 0)%Z s m
  /\ elements sp (1, 0, 0)%Z s m (fun a n b n' => if (n =? n')%Z then am_rme t (ll_l a) (ll_2j a) (ll_l b) (ll_2j b) else 0).
Proof.
  intros rp id t space ops sp Hid Hno Ha Hd. destruct (am_ok am_rme t sp Ha Hd) as (r & E & O & A). eexists _, r. split; [apply gen_intro; [exact Hid|exact Hno|left; split; [reflexivity|exact E]]|]. auto.
Qed.
Theorem generated_square : forall rp id t space ops, let sp := channel_space rp space in id <> "identity"%string -> assoc ops id = None -> orbital_space sp -> distinct_labels sp ->
  exists s m, gen rp id (GAm t) 2 (0, 0, 0)%Z space ops = Ok ((id, data_of sp (0, 0, 0)%Z s m) :: ops) /\ tensor_op sp (0, 0, 0)%Z s m
  /\ forall I i K k a n, orbital_at sp I i a n -> state sp K k -> entry s m I i K k = if Nat.eqb I K && Nat.eqb i k then casimir t a else 0.
Proof.
  intros rp id t space ops sp Hid Hno Ha Hd. destruct (am_square_ok t sp Ha Hd) as (r & E & O & A). eexists _, r. split; [apply gen_intro; [exact Hid|exact Hno|right; split; [reflexivity|exact E]]|]. auto.
Qed.
Theorem generated_isospin : forall rp id order Tz0 space ops, let sp := channel_space rp space in id <> "identity"%string -> assoc ops id = None -> aligned sp -> distinct_n sp ->
  exists s m, gen rp id GIso order (0, 0, Tz0)%Z space ops = Ok ((id, data_of sp (0, 0, Tz0)%Z s m) :: ops) /\ tensor_op sp (0, 0, Tz0)%Z s m
  /\ elements sp (0, 0, Tz0)%Z s m (fun a n b n' => if (n =? n')%Z then if (Tz0 =? 0)%Z then match ll_sp b with SP => 1 / 2 | SN => - (1 / 2) end else 1 else 0).
Proof.
  intros rp id order Tz0 space ops sp Hid Hno Ha Hd. destruct (isospin_ok sp Tz0 Ha Hd) as (r & E & O & A). eexists _, r. split; [apply gen_intro; [exact Hid|exact Hno|exact E]|]. auto.
Qed.
Theorem generated_ladder : forall rp id up order J0 g0 Tz0 space ops, let sp := channel_space rp space in id <> "identity"%string -> assoc ops id = None -> orbital_space sp -> rn_basis rp = BOscillator ->
  exists s m, gen rp id (GLadder up) order (J0, g0, Tz0) space ops = Ok ((id, data_of sp (J0, g0, Tz0) s m) :: ops) /\ tensor_op sp (J0, g0, Tz0) s m
  /\ elements sp (J0, g0, Tz0) s m (fun a n b n' => crme (ll_l a) (ll_2j a) (ll_l b) (ll_2j b) J0 * ladder_value up n (ll_l a) n' (ll_l b)).
Proof.
  intros rp id up order J0 g0 Tz0 space ops sp Hid Hno Hs Hb. destruct (ladder_ok crme up sp J0 g0 Tz0 Hs) as (r & E & O & A). eexists _, r.
  split; [apply gen_intro; [exact Hid|exact Hno|rewrite Hb; exact E]|]. auto.
Qed.
End Gen.
(** operators read from files *)
Theorem input_ok : forall id f q ops, assoc ops id = None -> of_bra f = of_ket f -> q = of_q f ->
  input_channel id f q ops = Ok ((id, data_of (of_bra f) (of_q f) (of_sectors f) (of_blocks f)) :: ops).
Proof. intros id f q ops H1 H2 ->. unfold input_channel, add_new. rewrite H1, <- H2, lspace_eqb_refl, q_eqb_refl. reflexivity. Qed.
Theorem input_refused : forall id f q ops,
  (assoc ops id <> None -> input_channel id f q ops = Exit)
  /\ (assoc ops id = None -> of_bra f <> of_ket f \/ q <> of_q f -> input_channel id f q ops = AssertFail).
Proof.
  intros id f q ops. unfold input_channel. split; intros H1; destruct (assoc ops id); try congruence. intros [H|H].
  - rewrite lspace_eqb_ne by exact H. reflexivity.
  - rewrite q_eqb_ne by exact H. destruct (lspace_eqb _ _); reflexivity.
Qed.
Theorem read_xform_scalar : forall f, (of_q f = (0, 0, 0)%Z -> read_xform f = Ok f) /\ (of_q f <> (0, 0, 0)%Z -> read_xform f = AssertFail).
Proof. intros f. unfold read_xform. split; intros H; [rewrite H; reflexivity|rewrite q_eqb_ne by exact H; reflexivity]. Qed.
(** operators transformed to another space *)
Theorem xform_channel_ok : forall id src xf xs ops f sp q fo, assoc ops id = None -> assoc xs xf = Some f -> holds ops src sp q fo ->
  of_q f = (0, 0, 0)%Z -> of_bra f = sp -> op_ok sp (of_ket f) (of_sectors f) (of_blocks f) -> of_sectors f = sectors_of sp (of_ket f) (0, 0, 0)%Z ->
  orbital_space sp -> orbital_space (of_ket f) -> distinct_labels sp ->
  exists s m, xform_ob_channel id src xf xs ops = Ok ((id, data_of (of_ket f) q s m) :: ops) /\ tensor_op (of_ket f) q s m
  /\ forall I i K k a n b n', orbital_at (of_ket f) I i a n -> orbital_at (of_ket f) K k b n' -> allowed q a b ->
     entry s m I i K k = ssum sp (fun A x => ssum sp (fun B y => file_entry f A x I i * fo A x B y * file_entry f B y K k)).
Proof.
  intros id src xf xs ops f sp q fo Hno Hf (s0 & m0 & Es & [O Hs] & V) Hq Hb Ox Hsx Hsp Hket Hd. unfold xform_ob_channel. rewrite Es, Hf, Hno. cbn [data_of od_space od_q od_sectors od_blocks].
  rewrite Hb, lspace_eqb_refl. cbn [cassert bind get]. rewrite Hq. set (rsp := of_ket f) in *. set (sx := of_sectors f) in *. set (mx := of_blocks f) in *. set (s' := sectors_of rsp rsp q).
  assert (Lab : forall X I, label_of sp X = label_of rsp I -> (X < length sp)%nat -> exists c ns ns', nth_error sp X = Some (c, ns) /\ nth_error rsp I = Some (c, ns')).
  { intros X I E HX. unfold label_of in E. destruct (nth_error sp X) as [[c ns]|] eqn:Ex; [|apply nth_error_None in Ex; lia]. destruct (nth_error rsp I) as [[d ns']|] eqn:Ey; [|discriminate].
    cbn in E. injection E as <-. eauto 6. }
  destruct (similarity_product sp rsp sx mx s0 m0 s' Ox O) as [HOk _].
  { intros A I Hin. rewrite Hsx in Hin. destruct (sectors_range _ _ _ _ Hin) as [HA HI]. cbn [fst snd] in HA, HI.
    destruct (nth_error sp A) as [[c ns]|] eqn:Ex; [|apply nth_error_None in Ex; lia]. destruct (nth_error rsp I) as [[d ns']|] eqn:Ey; [|apply nth_error_None in Ey; lia].
    apply (sectors_allowed2 sp rsp _ A I _ _ Ex Ey) in Hin. unfold label_of. rewrite Ex, Ey. cbn. f_equal.
    exact (scalar_labels c d (space_spin_half _ _ _ _ Hsp Ex) (space_spin_half _ _ _ _ Hket Ey) Hin). }
  { exact Hd. } { apply sectors_nodup. } { apply sectors_range. }
  destruct HOk as (r & Er & Or & Ar).
  { intros I K A B Hin HA HB LA LB. destruct (Lab A I LA HA) as (c & ns & ns' & X1 & X2). destruct (Lab B K LB HB) as (d & nt & nt' & Y1 & Y2).
    apply (sectors_allowed rsp q I K _ _ X2 Y2) in Hin. cbn [fst] in Hin. split; [rewrite Hs; apply (sectors_allowed sp q A B _ _ X1 Y1); exact Hin|]. rewrite Hsx.
    split; [apply (sectors_allowed2 sp rsp _ A I _ _ X1 X2)|apply (sectors_allowed2 sp rsp _ B K _ _ Y1 Y2)]; apply scalar_self.
    - exact (space_spin_half _ _ _ _ Hsp X1). - exact (space_spin_half _ _ _ _ Hsp Y1). }
  rewrite Er. cbn [bind]. unfold add_new. rewrite Hno. exists s', r. split; [reflexivity|]. split; [split; [exact Or|reflexivity]|].
  intros I i K k a n b n' H1 H2 Hal. destruct (orbital_sub _ _ _ _ _ H1) as [HI Hi]. destruct (orbital_sub _ _ _ _ _ H2) as [HK Hk].
  destruct (orbital_state _ _ _ _ _ H1) as (ns1 & X1 & _). destruct (orbital_state _ _ _ _ _ H2) as (ns2 & Y1 & _).
  rewrite Ar; [|apply (sectors_allowed rsp q I K _ _ X1 Y1); exact Hal|exact Hi|exact Hk].
  apply ssum_ext. intros A x HA. apply ssum_ext. intros B y HB. rewrite (V A x B y HA HB). reflexivity.
Qed.
Theorem xform_channel_refused : forall id src xf xs ops,
  (assoc ops src = None \/ assoc xs xf = None -> xform_ob_channel id src xf xs ops = Exit)
  /\ (assoc ops id <> None -> xform_ob_channel id src xf xs ops = Exit)
  /\ forall o f, assoc ops id = None -> assoc ops src = Some o -> assoc xs xf = Some f ->
     (od_space o <> of_bra f -> xform_ob_channel id src xf xs ops = AssertFail)
     /\ (od_space o = of_bra f -> od_q o <> None -> of_q f <> (0, 0, 0)%Z -> xform_ob_channel id src xf xs ops = AssertFail).
Proof.
  intros id src xf xs ops. unfold xform_ob_channel. split; [|split].
  - intros [->| ->]; [reflexivity|]. destruct (assoc ops src); reflexivity.
  - intros H. destruct (assoc ops src), (assoc xs xf); try reflexivity. destruct (assoc ops id); congruence.
  - intros o f H1 H2 H3. rewrite H1, H2, H3. split.
    + intros H. rewrite lspace_eqb_ne by exact H. reflexivity.
    + intros -> Hq Hf. rewrite lspace_eqb_refl. cbn [cassert bind]. destruct (od_q o) as [q|]; [|congruence]. cbn [get bind]. destruct (of_q f) as [[J0 g0] Tz0].
      rewrite similarity_refused by exact Hf. reflexivity.
Qed.
(** files read by ew-gen *)
Theorem ew_load_ok : forall f spherical, (of_bra f = of_ket f -> spherical = true -> ew_load f spherical = Ok f)
  /\ (of_bra f <> of_ket f \/ spherical = false -> ew_load f spherical = Exit).
Proof.
  intros f spherical. unfold ew_load. split.
  - intros -> ->. rewrite lspace_eqb_refl. reflexivity.
  - intros [H| ->]; [rewrite lspace_eqb_ne by exact H; reflexivity|]. destruct (lspace_eqb _ _); reflexivity.
Qed.

(** ** cases *)
Definition sp_orbitals : lspace := [(LL SP 0 1, [0%Z]); (LL SP 1 3, [0%Z])].
Theorem C84_ladder_case : forall crme, exists up down, ObmModel.ladder crme BOscillator true sp_orbitals (1, 1, 0)%Z (sectors_of sp_orbitals sp_orbitals (1, 1, 0)%Z) = Ok up
  /\ ObmModel.ladder crme BOscillator false sp_orbitals (1, 1, 0)%Z (sectors_of sp_orbitals sp_orbitals (1, 1, 0)%Z) = Ok down
  /\ entry (sectors_of sp_orbitals sp_orbitals (1, 1, 0)%Z) up 1 0 0 0 = crme 1%Z 3%Z 0%Z 1%Z 1%Z * sqrt 3
  /\ entry (sectors_of sp_orbitals sp_orbitals (1, 1, 0)%Z) up 0 0 1 0 = 0
  /\ entry (sectors_of sp_orbitals sp_orbitals (1, 1, 0)%Z) down 0 0 1 0 = crme 0%Z 1%Z 1%Z 3%Z 1%Z * sqrt 3.
Proof.
  intros crme. assert (S : orbital_space sp_orbitals) by (repeat constructor; cbn; lia).
  destruct (ladder_ok crme true _ 1 1 0 S) as (u & Eu & _ & Au). destruct (ladder_ok crme false _ 1 1 0 S) as (d & Ed & _ & Ad). exists u, d. split; [exact Eu|]. split; [exact Ed|].
  assert (P : orbital_at sp_orbitals 0 0 (LL SP 0 1) 0) by (exists [0%Z]; split; reflexivity). assert (Q : orbital_at sp_orbitals 1 0 (LL SP 1 3) 0) by (exists [0%Z]; split; reflexivity).
  assert (A1 : allowed (1, 1, 0)%Z (LL SP 1 3) (LL SP 0 1)) by (split; [unfold coupled; cbn; lia|split; [exists 1%Z; reflexivity|reflexivity]]).
  assert (A2 : allowed (1, 1, 0)%Z (LL SP 0 1) (LL SP 1 3)) by (split; [unfold coupled; cbn; lia|split; [exists 1%Z; reflexivity|reflexivity]]).
  rewrite (proj1 (Au _ _ _ _ _ _ _ _ Q P) A1), (proj1 (Au _ _ _ _ _ _ _ _ P Q) A2), (proj1 (Ad _ _ _ _ _ _ _ _ P Q) A2).
  cbn. repeat split; try ring.
Qed.
(** from oscillator n=0 to a single orbital n=1 with overlap 1/2 *)
Theorem C85_xform_case : exists s m,
  xform_ob_channel "b" "a" "x" [("x"%string, ObFile [(LL SP 0 1, [0%Z])] [(LL SP 0 1, [1%Z])] (0, 0, 0)%Z [(0, 0)%nat] [Mat 1 1 (fun _ _ => 1 / 2)])] [("a"%string, one_op (LL SP 0 1) 12)]
  = Ok [("b"%string, data_of [(LL SP 0 1, [1%Z])] (0, 0, 0)%Z s m); ("a"%string, one_op (LL SP 0 1) 12)] /\ entry s m 0 0 0 0 = 3.
Proof. eexists _, _. split; [reflexivity|]. cbn. lra. Qed.
