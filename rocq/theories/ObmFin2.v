(** Lemmas for C84-C87, continued. *)
From Coq Require Import String List ZArith Reals Bool Lra Lia.
From Verif Require Import Base BaseLemmas RMat H2Model MapModel OscModel OscSpec BlockModel BlockSpec BlockProof BlockFinal ObioModel ObioProof ObioFinal
  MixModel MixFinal ObmModel ObmSpec ObmProof ObmFinal.
Import ListNotations.
Open Scope R_scope.
Open Scope outcome_scope.

(** blocks of numbers as blocks of reals *)
Lemma real_blocks_ok : forall bra ket s el (F : nat -> nat -> nat -> nat -> R), NoDup s -> (forall x, In x s -> (fst x < length bra)%nat /\ (snd x < length ket)%nat) ->
  (forall I i K k a n b n', In (I, K) s -> orbital_at bra I i a n -> orbital_at ket K k b n' -> el n (ll_l a) n' (ll_l b) = Ok (Num (F I i K k))) ->
  exists bs ms, map_blocks (element_block bra ket el) s = Ok bs /\ map_blocks real_mat bs = Ok ms /\ op_ok bra ket s ms
  /\ forall I i K k, In (I, K) s -> (i < sub_dim bra I)%nat -> (k < sub_dim ket K)%nat -> entry s ms I i K k = F I i K k.
Proof.
  intros bra ket s el F Hn Hr Hf.
  assert (B : forall I K, In (I, K) s -> exists m, element_block bra ket el (I, K) = Ok m /\ rows m = sub_dim bra I /\ cols m = sub_dim ket K
     /\ forall i k, (i < sub_dim bra I)%nat -> (k < sub_dim ket K)%nat -> at_ m i k = Num (F I i K k)).
  { intros I K Hin. destruct (Hr _ Hin) as [HI HK]. cbn [fst snd] in HI, HK. unfold element_block, sub_dim. cbn [fst snd].
    destruct (nth_error bra I) as [[a ns]|] eqn:Ex; [|apply nth_error_None in Ex; lia]. destruct (nth_error ket K) as [[b ns']|] eqn:Ey; [|apply nth_error_None in Ey; lia].
    cbn [get bind fst snd].
    apply (fill_ok _ (Num 0) (length ns) (length ns') (fun i j => bn <- get (nth_error ns i) ;; kn <- get (nth_error ns' j) ;; el bn (ll_l a) kn (ll_l b)) (fun i k => Num (F I i K k))).
    intros i k Hi Hk. destruct (nth_error ns i) as [n|] eqn:En; [|apply nth_error_None in En; lia]. destruct (nth_error ns' k) as [n'|] eqn:En'; [|apply nth_error_None in En'; lia].
    cbn [get bind]. apply (Hf I i K k a n b n' Hin); eexists; eauto. }
  destruct (map_blocks_ok _ _ (element_block bra ket el) s) as (bs & E & L & N).
  { intros [I K] Hin. destruct (B I K Hin) as (m & Em & _). eauto. }
  assert (B2 : forall q I K m, nth_error s q = Some (I, K) -> nth_error bs q = Some m -> exists m', real_mat m = Ok m' /\ rows m' = sub_dim bra I /\ cols m' = sub_dim ket K
     /\ forall i k, (i < sub_dim bra I)%nat -> (k < sub_dim ket K)%nat -> at_ m' i k = F I i K k).
  { intros q I K m Hq Hm. destruct (N q _ Hq) as (m1 & Hm1 & Em1). rewrite Hm in Hm1. injection Hm1 as <-.
    destruct (B I K (nth_error_In _ _ Hq)) as (m2 & Em2 & R2 & C2 & A2). rewrite Em1 in Em2. injection Em2 as <-. unfold real_mat. rewrite R2, C2.
    apply (fill_ok _ 0 (sub_dim bra I) (sub_dim ket K) (fun i j => real (at_ m i j)) (fun i k => F I i K k)). intros i k Hi Hk. rewrite A2 by assumption. reflexivity. }
  destruct (map_blocks_ok _ _ real_mat bs) as (ms & E2 & L2 & N2).
  { intros m Hm. destruct (In_nth_error _ _ Hm) as [q Hq]. destruct (nth_error s q) as [[I K]|] eqn:Es.
    - destruct (B2 q I K m Es Hq) as (m' & Em' & _). eauto.
    - apply nth_error_None in Es. assert (q < length bs)%nat by (apply nth_error_Some; congruence). lia. }
  exists bs, ms. split; [exact E|]. split; [exact E2|]. apply (blocks_entry s ms (fun _ => O) (fun _ => O) F bra ket Hn Hr); [congruence|].
  intros q I K Hq. destruct (N q _ Hq) as (m & Hm & _). destruct (B2 q I K m Hq Hm) as (m' & Em' & X). destruct (N2 q m Hm) as (m'' & Hm'' & Em''). rewrite Em' in Em''. injection Em'' as <-. eauto.
Qed.

Section Solid.
Variable spline : spline_me.
Variable crme : Z -> Z -> Z -> Z -> Z -> R.
Variable am_rme : am_type -> Z -> Z -> Z -> Z -> R.
Variable inv_sqrt_4pi : R.
Theorem solid_ok : forall bt t order sp J0 g0 Tz0 (rad : llabel -> Z -> llabel -> Z -> R),
  (forall I i K k a n b n', orbital_at sp I i a n -> orbital_at sp K k b n' -> allowed (J0, g0, Tz0) a b ->
     radial_value spline bt t order J0 g0 n (ll_l a) n' (ll_l b) (rad a n b n')) ->
  exists r, solid_harmonic spline crme bt t order sp (J0, g0, Tz0) (sectors_of sp sp (J0, g0, Tz0)) = Ok r /\ tensor_op sp (J0, g0, Tz0) (sectors_of sp sp (J0, g0, Tz0)) r
  /\ elements sp (J0, g0, Tz0) (sectors_of sp sp (J0, g0, Tz0)) r (fun a n b n' => rad a n b n' * crme (ll_l a) (ll_2j a) (ll_l b) (ll_2j b) J0).
Proof.
  intros bt t order sp J0 g0 Tz0 rad H. set (q := (J0, g0, Tz0)) in *. set (s := sectors_of sp sp q).
  destruct (real_blocks_ok sp sp s (radial_element spline bt (is_TK t) order J0 g0)
    (fun I i K k => match nth_error sp I, nth_error sp K with Some x, Some y =>
       match nth_error (snd x) i, nth_error (snd y) k with Some n, Some n' => rad (fst x) n (fst y) n' | _, _ => 0 end | _, _ => 0 end)
    (sectors_nodup _ _ _) (sectors_range _ _ _)) as (bs & ms & E1 & E2 & O & A).
  { intros I i K k a n b n' Hin H1 H2. destruct H1 as (ns & X1 & X2). destruct H2 as (ns' & Y1 & Y2). rewrite X1, Y1. cbn [fst snd]. rewrite X2, Y2.
    apply (H I i K k); [exists ns; auto|exists ns'; auto|]. apply (sectors_allowed sp q I K _ _ X1 Y1) in Hin. exact Hin. }
  unfold solid_harmonic, q. fold q. unfold radial_operator. rewrite E1. cbn [bind]. rewrite E2. cbn [bind].
  destruct (update_ok sp (fun b k => Ok (angular crme J0 b k))
    (fun I K => match nth_error sp I, nth_error sp K with Some x, Some y => angular crme J0 (fst x) (fst y) | _, _ => 0 end) s ms O) as (r & Er & Or & Ar).
  { intros I K x y _ Hx Hy. rewrite Hx, Hy. reflexivity. }
  exists r. split; [exact Er|]. split; [split; [exact Or|reflexivity]|]. intros I i K k a n b n' H1 H2.
  destruct (orbital_state _ _ _ _ _ H1) as (ns & X1 & X2 & _ & L1 & D1). destruct (orbital_state _ _ _ _ _ H2) as (ns' & Y1 & Y2 & _ & L2 & D2). split; intros Hal.
  - rewrite Ar. rewrite A; [|apply (sectors_allowed sp q I K _ _ X1 Y1); exact Hal|lia|lia]. rewrite X1, Y1. cbn [fst snd]. rewrite X2, Y2. reflexivity.
  - apply entry_absent. unfold s. rewrite (sectors_allowed sp q I K _ _ X1 Y1). exact Hal.
Qed.
(** a radial operator of a control file *)
Theorem generated_solid : forall rp id t order J0 g0 Tz0 ops (rad : llabel -> Z -> llabel -> Z -> R), id <> "identity"%string -> assoc ops id = None ->
  (forall I i K k a n b n', orbital_at (rn_space rp) I i a n -> orbital_at (rn_space rp) K k b n' -> allowed (J0, g0, Tz0) a b ->
     radial_value spline (rn_basis rp) t order J0 g0 n (ll_l a) n' (ll_l b) (rad a n b n')) ->
  exists s m, generated_channel spline crme am_rme inv_sqrt_4pi rp id (GRadial t) order (J0, g0, Tz0) None ops = Ok ((id, data_of (rn_space rp) (J0, g0, Tz0) s m) :: ops)
  /\ tensor_op (rn_space rp) (J0, g0, Tz0) s m
  /\ elements (rn_space rp) (J0, g0, Tz0) s m (fun a n b n' => length_power t order (rn_length rp)
       * (match assoc kinematic id with Some _ => 1 | None => sqrt (IZR (2 * order + 1)) * inv_sqrt_4pi end)
       * rad a n b n' * crme (ll_l a) (ll_2j a) (ll_l b) (ll_2j b) J0).
Proof.
  intros rp id t order J0 g0 Tz0 ops rad Hid Hno H. destruct (solid_ok (rn_basis rp) t order (rn_space rp) J0 g0 Tz0 rad H) as (r & E & O & A).
  unfold generated_channel, generate_blocks. rewrite Hno. apply String.eqb_neq in Hid. rewrite Hid. rewrite E. cbn [bind].
  destruct (update_ok (rn_space rp) (fun _ _ => Ok (radial_scale inv_sqrt_4pi id t order (rn_length rp))) (fun _ _ => radial_scale inv_sqrt_4pi id t order (rn_length rp))
     _ r (proj1 O)) as (m & Em & Om & Am); [reflexivity|]. rewrite Em. cbn [bind]. unfold add_new. rewrite Hno.
  eexists _, m. split; [reflexivity|]. split; [split; [exact Om|reflexivity]|]. intros I i K k a n b n' H1 H2. destruct (A I i K k a n b n' H1 H2) as [A1 A2].
  rewrite Am. split; intros Hal; [rewrite (A1 Hal)|rewrite (A2 Hal); ring]. unfold radial_scale, length_power, hat.
  destruct (assoc kinematic id); ring.
Qed.
Theorem generated_identity : forall rp t order q ops, assoc ops "identity"%string = None ->
  exists s m, generated_channel spline crme am_rme inv_sqrt_4pi rp "identity" t order q None ops = Ok (("identity"%string, data_of (rn_space rp) q s m) :: ops)
  /\ tensor_op (rn_space rp) q s m
  /\ forall I i K k a n b n', orbital_at (rn_space rp) I i a n -> orbital_at (rn_space rp) K k b n' -> allowed q a b ->
     entry s m I i K k = if Nat.eqb i k then 1 else 0.
Proof.
  intros rp t order q ops Hno. destruct (eye_blocks (rn_space rp) q (fun _ _ => 1)) as (r & E & O & A).
  assert (E' : exists r', generate_blocks spline crme am_rme inv_sqrt_4pi rp "identity" t order q (rn_space rp) (sectors_of (rn_space rp) (rn_space rp) q) = Ok r'
    /\ tensor_op (rn_space rp) q (sectors_of (rn_space rp) (rn_space rp) q) r'
    /\ forall I i K k, In (I, K) (sectors_of (rn_space rp) (rn_space rp) q) -> (i < sub_dim (rn_space rp) I)%nat -> (k < sub_dim (rn_space rp) K)%nat ->
       entry (sectors_of (rn_space rp) (rn_space rp) q) r' I i K k = if Nat.eqb i k then 1 else 0).
  { unfold generate_blocks. cbn [String.eqb Ascii.eqb Bool.eqb].
    destruct (sector_blocks_ok (rn_space rp) (fun b k => Ok (eye (length (snd b)) (length (snd k)))) (fun I i K k => if Nat.eqb i k then 1 else 0)
      (sectors_of (rn_space rp) (rn_space rp) q) (sectors_nodup _ _ _) (sectors_range _ _ _)) as (r' & Er & Or & Ar).
    - intros I K x y _ _ _. eexists. split; [reflexivity|]. split; [reflexivity|]. split; [reflexivity|]. intros i k _ _. reflexivity.
    - exists r'. split; [exact Er|]. split; [split; [exact Or|reflexivity]|exact Ar]. }
  destruct E' as (r' & Er & Or & Ar). unfold generated_channel. rewrite Hno, Er. cbn [bind]. unfold add_new. rewrite Hno. eexists _, r'. split; [reflexivity|]. split; [exact Or|].
  intros I i K k a n b n' H1 H2 Hal. destruct (orbital_state _ _ _ _ _ H1) as (ns & X1 & X2 & _ & L1 & D1). destruct (orbital_state _ _ _ _ _ H2) as (ns' & Y1 & Y2 & _ & L2 & D2).
  apply Ar; [apply (sectors_allowed (rn_space rp) q I K _ _ X1 Y1); exact Hal|lia|lia].
Qed.
Theorem generated_exists : forall rp id t order q space ops o, assoc ops id = Some o -> generated_channel spline crme am_rme inv_sqrt_4pi rp id t order q space ops = Exit.
Proof. intros. unfold generated_channel. rewrite H. reflexivity. Qed.

End Solid.
(** ** what is written *)
Section Write.
Variable spline : spline_me.
Lemma lspace_eqb_true : forall a b, lspace_eqb a b = true -> a = b.
Proof. intros a b H. unfold lspace_eqb in H. destruct (list_eq_dec _ a b); [assumption|discriminate]. Qed.
Lemma sectors_allowed2 : forall bra ket q I K x y, nth_error bra I = Some x -> nth_error ket K = Some y -> (In (I, K) (sectors_of bra ket q) <-> allowed q (fst x) (fst y)).
Proof.
  intros bra ket [[J0 g0] Tz0] I K x y Hx Hy. rewrite sectors_in, <- selection_allowed. split.
  - intros (x' & y' & Hx' & Hy' & H). congruence.
  - intros H. eauto.
Qed.
Lemma same_dec : forall sp I i sp' A a c n d n', orbital_at sp I i c n -> orbital_at sp' A a d n' -> (same_orbital sp I i sp' A a <-> c = d /\ n = n').
Proof.
  intros sp I i sp' A a c n d n' (ns & H1 & H2) (ns' & H3 & H4). split.
  - intros (x & y & m & E1 & E2 & E3 & E4 & E5). rewrite H1 in E1. injection E1 as <-. rewrite H3 in E2. injection E2 as <-. cbn [fst snd] in *. split; congruence.
  - intros [<- <-]. exists (c, ns), (c, ns'), n. auto.
Qed.
Lemma same_orbital_at : forall sp I i sp' A a, same_orbital sp I i sp' A a -> exists c n, orbital_at sp I i c n /\ orbital_at sp' A a c n.
Proof. intros sp I i sp' A a ([c ns] & [d ns'] & n & E1 & E2 & E3 & E4 & E5). cbn [fst snd] in *. subst d. exists c, n. split; [exists ns|exists ns']; auto. Qed.
Lemma orbital_fun : forall sp I i a n b n', orbital_at sp I i a n -> orbital_at sp I i b n' -> a = b /\ n = n'.
Proof. intros sp I i a n b n' (ns & H1 & H2) (ns' & H3 & H4). rewrite H1 in H3. injection H3 as <- <-. split; congruence. Qed.
Lemma orbital_unique : forall sp A a B b c n, distinct_labels sp -> distinct_n sp -> orbital_at sp A a c n -> orbital_at sp B b c n -> A = B /\ a = b.
Proof.
  intros sp A a B b c n Hd Hn (ns & H1 & H2) (ns' & H3 & H4). assert (A = B) by exact (label_index sp A B c ns ns' Hd H1 H3). subst B. split; [reflexivity|].
  rewrite H1 in H3. injection H3 as <-. unfold distinct_n in Hn. rewrite Forall_forall in Hn. assert (N := Hn _ (nth_error_In _ _ H1)). cbn in N. rewrite NoDup_nth_error in N.
  apply N; [apply nth_error_Some; congruence|congruence].
Qed.
Lemma label_dec : forall a b : llabel, {a = b} + {a <> b}.
Proof. repeat decide equality. Qed.
(** the overlaps of a basis with a selection of itself *)
Lemma self_overlap_blocks : forall bt sp rsp, orbital_space sp -> orbital_space rsp -> exists xm mx,
  radial_overlaps spline 0 0 0 bt bt 1 true sp rsp (sectors_of sp rsp (0, 0, 0)%Z) = Ok xm /\ map_blocks real_mat xm = Ok mx /\ op_ok sp rsp (sectors_of sp rsp (0, 0, 0)%Z) mx
  /\ forall A a I i, state sp A a -> state rsp I i ->
    (same_orbital rsp I i sp A a -> entry (sectors_of sp rsp (0, 0, 0)%Z) mx A a I i = 1) /\ (~ same_orbital rsp I i sp A a -> entry (sectors_of sp rsp (0, 0, 0)%Z) mx A a I i = 0).
Proof.
  intros bt sp rsp Hs Hr. set (sx := sectors_of sp rsp (0, 0, 0)%Z).
  destruct (real_blocks_ok sp rsp sx (fun bn bl kn kl => Ok (overlap_element spline bt bt 1 true bn bl kn kl))
    (fun A a I i => match nth_error sp A, nth_error rsp I with Some x, Some y =>
       match nth_error (snd x) a, nth_error (snd y) i with Some n, Some n' => if (n =? n')%Z && (ll_l (fst x) =? ll_l (fst y))%Z then 1 else 0 | _, _ => 0 end | _, _ => 0 end)
    (sectors_nodup _ _ _) (sectors_range _ _ _)) as (xm & mx & E1 & E2 & O & V).
  { intros A a I i c n d n' Hin (ns & X1 & X2) (ns' & Y1 & Y2). rewrite X1, Y1. cbn [fst snd]. rewrite X2, Y2. unfold overlap_element.
    assert (radial_basis_eqb bt bt = true) as -> by (destruct bt; reflexivity). cbn [andb]. destruct ((n =? n')%Z && (ll_l c =? ll_l d)%Z); reflexivity. }
  exists xm, mx. split; [exact E1|]. split; [exact E2|]. split; [exact O|]. intros A a I i HA HI.
  destruct (state_orbital _ _ _ HA) as (c & n & H1). destruct (state_orbital _ _ _ HI) as (d & n' & H2).
  destruct (orbital_state _ _ _ _ _ H1) as (ns & X1 & X2 & _ & L1 & D1). destruct (orbital_state _ _ _ _ _ H2) as (ns' & Y1 & Y2 & _ & L2 & D2).
  assert (Sc := space_spin_half _ _ _ _ Hs X1). assert (Sd := space_spin_half _ _ _ _ Hr Y1). rewrite (same_dec rsp I i sp A a d n' c n H2 H1).
  destruct (label_dec c d) as [<-|Hne].
  - assert (Hin : In (A, I) sx) by (apply (sectors_allowed2 sp rsp _ A I _ _ X1 Y1); exact (scalar_self c Sc)).
    rewrite V by (assumption || lia). rewrite X1, Y1. cbn [fst snd]. rewrite X2, Y2, Z.eqb_refl, andb_true_r. destruct (Z.eqb_spec n n'); split; intros; intuition congruence.
  - split; [intros [? _]; congruence|]. intros _. apply entry_absent. intros Hin. apply (sectors_allowed2 sp rsp _ A I _ _ X1 Y1) in Hin. exact (Hne (scalar_labels c d Sc Sd Hin)).
Qed.
Theorem write_ok : forall rp id ops sp q s m, assoc ops id = Some (data_of sp q s m) -> tensor_op sp q s m ->
  orbital_space sp -> distinct_labels sp -> distinct_n sp -> orbital_space (rn_space rp) ->
  exists s' m', write_channel spline rp id ops = Ok (ObFile (rn_space rp) (rn_space rp) q s' m') /\ tensor_op (rn_space rp) q s' m'
  /\ (forall I i K k A a B b, same_orbital (rn_space rp) I i sp A a -> same_orbital (rn_space rp) K k sp B b -> entry s' m' I i K k = entry s m A a B b)
  /\ (forall I i K k, state (rn_space rp) I i -> state (rn_space rp) K k ->
        (forall A a, ~ same_orbital (rn_space rp) I i sp A a) \/ (forall B b, ~ same_orbital (rn_space rp) K k sp B b) -> entry s' m' I i K k = 0).
Proof.
  intros rp id ops sp q s m Hop [O Hs] Hsp Hd Hn Hrsp. unfold write_channel. rewrite Hop. cbn [data_of od_q get bind od_space od_sectors od_blocks].
  destruct (lspace_eqb sp (rn_space rp)) eqn:Eq.
  - apply lspace_eqb_true in Eq. subst sp. exists s, m. split; [reflexivity|]. split; [split; assumption|]. split.
    + intros I i K k A a B b H1 H2. destruct (same_orbital_at _ _ _ _ _ _ H1) as (c & n & P1 & P2). destruct (same_orbital_at _ _ _ _ _ _ H2) as (d & n' & Q1 & Q2).
      destruct (orbital_unique _ _ _ _ _ _ _ Hd Hn P1 P2) as [-> ->]. destruct (orbital_unique _ _ _ _ _ _ _ Hd Hn Q1 Q2) as [-> ->]. reflexivity.
    + intros I i K k HI HK H. exfalso. destruct (state_orbital _ _ _ HI) as (c & n & P). destruct (state_orbital _ _ _ HK) as (d & n' & Q). destruct H as [H|H].
      * apply (H I i). rewrite (same_dec _ _ _ _ _ _ _ _ _ _ P P). auto.
      * apply (H K k). rewrite (same_dec _ _ _ _ _ _ _ _ _ _ Q Q). auto.
  - clear Eq. set (rsp := rn_space rp) in *. destruct (self_overlap_blocks (rn_basis rp) sp rsp Hsp Hrsp) as (xm & mx & E1 & E2 & Ox & V). rewrite E1. cbn [bind]. rewrite E2. cbn [bind].
    set (sx := sectors_of sp rsp (0, 0, 0)%Z) in *. set (s' := sectors_of rsp rsp q).
    assert (Lab : forall X I, label_of sp X = label_of rsp I -> (X < length sp)%nat -> exists c ns ns', nth_error sp X = Some (c, ns) /\ nth_error rsp I = Some (c, ns')).
    { intros X I E HX. unfold label_of in E. destruct (nth_error sp X) as [[c ns]|] eqn:Ex; [|apply nth_error_None in Ex; lia]. destruct (nth_error rsp I) as [[d ns']|] eqn:Ey; [|discriminate].
      cbn in E. injection E as <-. eauto 6. }
    destruct (similarity_product sp rsp sx mx s m s' Ox O) as [HOk _].
    { intros A I Hin. destruct (sectors_range _ _ _ _ Hin) as [HA HI]. cbn [fst snd] in HA, HI.
      destruct (nth_error sp A) as [[c ns]|] eqn:Ex; [|apply nth_error_None in Ex; lia]. destruct (nth_error rsp I) as [[d ns']|] eqn:Ey; [|apply nth_error_None in Ey; lia].
      apply (sectors_allowed2 sp rsp _ A I _ _ Ex Ey) in Hin. unfold label_of. rewrite Ex, Ey. cbn. f_equal.
      exact (scalar_labels c d (space_spin_half _ _ _ _ Hsp Ex) (space_spin_half _ _ _ _ Hrsp Ey) Hin). }
    { exact Hd. } { apply sectors_nodup. } { apply sectors_range. }
    destruct HOk as (r & Er & Or & Ar).
    { intros I K A B Hin HA HB LA LB. destruct (Lab A I LA HA) as (c & ns & ns' & X1 & X2). destruct (Lab B K LB HB) as (d & nt & nt' & Y1 & Y2).
      apply (sectors_allowed rsp q I K _ _ X2 Y2) in Hin. cbn [fst] in Hin. split; [rewrite Hs; apply (sectors_allowed sp q A B _ _ X1 Y1); exact Hin|].
      split; [apply (sectors_allowed2 sp rsp _ A I _ _ X1 X2)|apply (sectors_allowed2 sp rsp _ B K _ _ Y1 Y2)]; apply scalar_self.
      - exact (space_spin_half _ _ _ _ Hsp X1). - exact (space_spin_half _ _ _ _ Hsp Y1). }
    rewrite Er. cbn [bind]. exists s', r. split; [reflexivity|]. split; [split; [exact Or|reflexivity]|]. split.
    + intros I i K k A a B b H1 H2. destruct (same_orbital_at _ _ _ _ _ _ H1) as (c & n & P1 & P2). destruct (same_orbital_at _ _ _ _ _ _ H2) as (d & n' & Q1 & Q2).
      destruct (orbital_sub _ _ _ _ _ P1) as [HI Hi]. destruct (orbital_sub _ _ _ _ _ Q1) as [HK Hk].
      destruct (orbital_state _ _ _ _ _ P1) as (ns1 & X1 & _). destruct (orbital_state _ _ _ _ _ Q1) as (ns2 & Y1 & _).
      destruct (orbital_state _ _ _ _ _ P2) as (ns3 & X2 & _). destruct (orbital_state _ _ _ _ _ Q2) as (ns4 & Y2 & _).
      destruct (in_dec (fun x y : nat * nat => ltac:(decide equality; apply Nat.eq_dec)) (I, K) s') as [Hin|Hin].
      * rewrite Ar by assumption. rewrite (ssum_one sp A a).
        -- rewrite (ssum_one sp B b).
           ++ rewrite (proj1 (V A a I i (orbital_sub _ _ _ _ _ P2) (orbital_sub _ _ _ _ _ P1)) H1), (proj1 (V B b K k (orbital_sub _ _ _ _ _ Q2) (orbital_sub _ _ _ _ _ Q1)) H2). ring.
           ++ exact (orbital_sub _ _ _ _ _ Q2).
           ++ intros J j HJ Hne. rewrite (proj2 (V J j K k HJ (orbital_sub _ _ _ _ _ Q1))); [ring|]. intros Hsame. destruct (same_orbital_at _ _ _ _ _ _ Hsame) as (e & n3 & Z1 & Z2).
              destruct (orbital_fun _ _ _ _ _ _ _ Q1 Z1) as [<- <-]. destruct (orbital_unique _ _ _ _ _ _ _ Hd Hn Q2 Z2) as [-> ->]. congruence.
        -- exact (orbital_sub _ _ _ _ _ P2).
        -- intros J j HJ Hne. apply ssum_0. intros J' j' HJ'. rewrite (proj2 (V J j I i HJ (orbital_sub _ _ _ _ _ P1))); [ring|]. intros Hsame. destruct (same_orbital_at _ _ _ _ _ _ Hsame) as (e & n3 & Z1 & Z2).
           destruct (orbital_fun _ _ _ _ _ _ _ P1 Z1) as [<- <-]. destruct (orbital_unique _ _ _ _ _ _ _ Hd Hn P2 Z2) as [-> ->]. congruence.
      * rewrite (entry_absent s') by exact Hin. symmetry. apply entry_absent. intros Hin'. apply Hin. apply (sectors_allowed rsp q I K _ _ X1 Y1).
        rewrite Hs in Hin'. apply (sectors_allowed sp q A B _ _ X2 Y2) in Hin'. exact Hin'.
    + intros I i K k HI HK H.
      destruct (in_dec (fun x y : nat * nat => ltac:(decide equality; apply Nat.eq_dec)) (I, K) s') as [Hin|Hin]; [|apply entry_absent; exact Hin].
      rewrite Ar by (assumption || apply HI || apply HK). apply ssum_0. intros A a HA. apply ssum_0. intros B b HB. destruct H as [H|H].
      * rewrite (proj2 (V A a I i HA HI) (H A a)). ring.
      * rewrite (proj2 (V B b K k HB HK) (H B b)). ring.
Qed.
End Write.
