(** Lemmas for C128 and C130: target, transformations, and the program as a whole. *)
From Coq Require Import String List ZArith Reals Bool Lra Lia.
From Verif Require Import Base BaseLemmas RMat H2Model MapModel MapSpec MapProof MapFinal XformModel XformSpec XformProof XformFinal SepModel SepSpec SepProof SepFinal XformStates XformMore OscModel OscSpec OscProof BlockModel BlockSpec BlockProof BlockFinal
  ObioModel ObioProof ObioFinal ObioMore MixModel MixSpec MixProof MixFinal MixMore ObmModel ObmSpec ObmProof ObmFinal NatModel RgModel HmModel HmSpec HmOspec HmProof HmMeans HmFspec HmOb.
Import ListNotations.
Open Scope R_scope.
Open Scope string_scope.
Open Scope outcome_scope.

Lemma truncate_spec : forall w l l', truncated w l l' <-> l' = truncate w l.
Proof.
  intros w l. induction l as [|o l IH]; intros l'; cbn.
  - split; [intros H; inversion H; reflexivity|intros ->; constructor].
  - destruct (Rle_dec _ _) as [H|H].
    + split; [intros T; inversion T; subst; [f_equal; apply IH; assumption|contradiction]|intros ->; constructor; [exact H|apply IH; reflexivity]].
    + split; [intros T; inversion T; subst; [contradiction|apply IH; assumption]|intros ->; apply tr_drop; [exact H|apply IH; reflexivity]].
Qed.
Lemma known_format_spec : forall f, known_format f = true <-> In f [0; 15099; 15200]%Z.
Proof.
  intros f. unfold known_format. rewrite !orb_true_iff, !Z.eqb_eq. cbn. intuition.
Qed.
Lemma last_in : forall A (f : statement -> option A) l x, last_of f l = Some x -> exists s, In s l /\ f s = Some x.
Proof.
  intros A f l x. unfold last_of. intros H. assert (G : exists s, In s (rev l) /\ f s = Some x).
  { induction (rev l) as [|s m IH]; [discriminate|]. cbn in H. destruct (f s) eqn:E; [injection H as <-; exists s; split; [left; reflexivity|exact E]|].
    destruct (IH H) as (t & Ht & Et). exists t. split; [right; exact Ht|exact Et]. }
  destruct G as (s & Hs & Es). exists s. split; [apply in_rev; exact Hs|exact Es].
Qed.
Lemma map_fst_sections : forall A B (st : statement -> option A) (it : statement -> option B) l, map fst (sections st it l) = all_of st l.
Proof. intros A B st it l. induction l as [|s l IH]; [reflexivity|]. cbn. destruct (st s); cbn; rewrite IH; reflexivity. Qed.

Section Final.
Variable d : disk.
Variable oscillator_orbitals : Z -> list (oinfo R).
Variable mk_space : list (oinfo R) -> weights -> Z -> list subspace.
Variable mk_sectors : list subspace -> qn -> list sector.
Variable spline : spline_me.
Variable crme : Z -> Z -> Z -> Z -> Z -> R.
Variable am_rme : am_type -> Z -> Z -> Z -> Z -> R.
Variable inv_sqrt_4pi : R.
Variable racah : Z -> Z -> Z -> Z -> Z -> Z -> R.
Variable F1 F2 : factor1.
Variable F12 : factor12.
Variable tol : R.
Notation target_index := (target_index d oscillator_orbitals mk_space mk_sectors).
Notation setting := (setting d oscillator_orbitals mk_space mk_sectors).
Notation construct_all := (construct_all d spline crme am_rme inv_sqrt_4pi racah).
Notation h2mixer := (h2mixer d oscillator_orbitals mk_space mk_sectors spline crme am_rme inv_sqrt_4pi racah F1 F2 F12 tol).

(** ** target *)
Theorem target_ok : forall c sts os tgt, means c sts -> setting sts os tgt -> target_index c = Ok (os, tgt).
Proof.
  intros c sts os [torb tsp tsec tq] [M1 M2 M3 M4 _ M6 _ _ _ _ _] [S1 (w & S2 & S3 & S4) S5 S6 S7]. cbn [ti_orb ti_space ti_sectors ti_q] in *. unfold HmModel.target_index, target_orbitals.
  rewrite M1, M2, M3, M4, M6, S2. unfold the_format, the_cutoff, the_file, the_q in *. rewrite (proj2 (known_format_spec _) S1). cbn [check bind get].
  assert (X : (if (0 <=? or_else (last_of cutoff_of sts) (-1))%Z then Ok (oscillator_orbitals (or_else (last_of cutoff_of sts) (-1)%Z))
     else bind (open_file (d_orbitals d (or_else (last_of orbitals_of sts) ""))) (fun os => Ok (truncate w os))) = Ok os).
  { destruct S3 as [[H ->]|(H & all & Ha & T)].
    - apply Z.leb_le in H. rewrite H. reflexivity.
    - apply Z.leb_gt in H. rewrite H, Ha. cbn. apply truncate_spec in T. rewrite T. reflexivity. }
  rewrite X. cbn [bind]. subst. reflexivity.
Qed.
Theorem target_inv : forall c sts os tgt, means c sts -> target_index c = Ok (os, tgt) -> setting sts os tgt.
Proof.
  intros c sts os tgt [M1 M2 M3 M4 _ M6 _ _ _ _ _] H. unfold HmModel.target_index, target_orbitals in H. rewrite M1, M2, M3, M4, M6 in H.
  apply bind_inv in H. destruct H as (os' & Ho & H). apply bind_inv in H. destruct H as (w & Hw & H). cbn zeta in H. injection H as <- <-.
  apply bind_inv in Ho. destruct Ho as (u & Hf & Ho). unfold get in Hw. destruct (last_of weights_of sts) as [w'|] eqn:Ew; [|discriminate]. injection Hw as ->.
  constructor; try reflexivity.
  - apply known_format_spec. unfold the_format. unfold check in Hf. destruct (known_format _); [reflexivity|discriminate].
  - exists w. split; [exact Ew|]. split; [|reflexivity]. unfold the_cutoff, the_file. destruct (0 <=? _)%Z eqn:E.
    + apply Z.leb_le in E. injection Ho as <-. left. auto.
    + apply Z.leb_gt in E. apply bind_inv in Ho. destruct Ho as (all & Ha & Ho). cbn in Ho. injection Ho as <-. right. split; [exact E|]. exists all. split; [|apply truncate_spec; reflexivity].
      unfold open_file in Ha. destruct (d_orbitals d _); [congruence|discriminate].
Qed.
Theorem target_refused : forall c sts, means c sts -> ~ In (the_format sts) [0; 15099; 15200]%Z \/ ((the_cutoff sts < 0)%Z /\ d_orbitals d (the_file sts) = None) -> target_index c = Exit.
Proof.
  intros c sts [M1 M2 M3 M4 _ M6 _ _ _ _ _] H. unfold HmModel.target_index, target_orbitals. rewrite M1, M2, M6. unfold the_format, the_cutoff, the_file in H. destruct (known_format _) eqn:E; [|reflexivity]. cbn [check bind].
  destruct H as [H|[H1 H2]]; [apply known_format_spec in E; contradiction|]. apply Z.leb_gt in H1. rewrite H1, H2. reflexivity.
Qed.

(** ** transformations *)
Lemma assoc_map_blocks : forall (g : string * string -> outcome (string * obfile)) l xs, map_blocks g l = Ok xs -> (forall p r, g p = Ok r -> fst r = fst p) ->
  forall id, match assoc l id with None => assoc xs id = None | Some file => exists f, g (id, file) = Ok (id, f) /\ assoc xs id = Some f end.
Proof.
  intros g l. induction l as [|[x file] l IH]; intros xs H G id; cbn in H.
  - injection H as <-. reflexivity.
  - apply bind_inv in H. destruct H as ([y f] & E & H). apply bind_inv in H. destruct H as (r & Er & H). injection H as <-. assert (y = x) as -> by (exact (G _ _ E)).
    cbn. destruct (String.eqb_spec id x) as [->|]; [exists f; auto|]. apply IH; [exact Er|exact G].
Qed.
Theorem xforms_ok : forall c sts, means c sts -> xforms_fine d sts -> exists xs, read_xforms d c = Ok xs /\ forall id, assoc xs id = xform_of d sts id.
Proof.
  intros c sts M X. unfold read_xforms. assert (MX := m_xforms _ _ M). assert (M8 := m_once _ _ M).
  destruct (map_blocks_ok _ _ (fun p => bind (open_file (d_ob d (snd p))) (fun f => bind (read_xform f) (fun f' => Ok (fst p, f')))) (c_xforms c)) as (xs & E & _).
  { intros [id file] Hin. assert (A : assoc (c_xforms c) id = Some file).
    { clear - Hin M8. induction (c_xforms c) as [|[x y] l IH]; [destruct Hin|]. cbn in *. inversion M8; subst. destruct Hin as [H|H]; [injection H as -> ->; rewrite String.eqb_refl; reflexivity|].
      destruct (String.eqb_spec id x) as [->|]; [exfalso; apply H1; apply in_map_iff; exists (x, file); auto|auto]. }
    rewrite MX in A. destruct (X id file A) as (f & Ef & Eq). exists (id, f). cbn [snd fst]. rewrite Ef. cbn [open_file bind]. unfold read_xform. rewrite Eq. reflexivity. }
  exists xs. split; [exact E|]. intros id. assert (A := assoc_map_blocks _ _ _ E). specialize (A ltac:(intros p r H; apply bind_inv in H; destruct H as (f & _ & H); apply bind_inv in H; destruct H as (f' & _ & H); injection H as <-; reflexivity) id).
  unfold xform_of. rewrite <- MX. destruct (assoc (c_xforms c) id) as [file|]; [|exact A]. destruct A as (f & A1 & ->). cbn [fst snd] in A1. apply bind_inv in A1. destruct A1 as (f0 & A1 & A2).
  apply bind_inv in A2. destruct A2 as (f1 & A2 & A3). injection A3 as ->. unfold read_xform in A2. apply bind_inv in A2. destruct A2 as (_ & _ & A2). injection A2 as ->.
  unfold open_file in A1. destruct (d_ob d file); congruence.
Qed.
Theorem xforms_inv : forall c sts xs, means c sts -> read_xforms d c = Ok xs -> xforms_fine d sts /\ forall id, assoc xs id = xform_of d sts id.
Proof.
  intros c sts xs M H. assert (F : xforms_fine d sts).
  { intros id file E. rewrite <- (m_xforms _ _ M) in E. unfold read_xforms in H.
    assert (A := assoc_map_blocks _ _ _ H). specialize (A ltac:(intros p r G; apply bind_inv in G; destruct G as (f & _ & G); apply bind_inv in G; destruct G as (f' & _ & G); injection G as <-; reflexivity) id).
    rewrite E in A. destruct A as (f & A1 & _). cbn [fst snd] in A1. apply bind_inv in A1. destruct A1 as (f0 & A1 & A2). apply bind_inv in A2. destruct A2 as (f1 & A2 & A3). injection A3 as ->.
    unfold read_xform in A2. destruct (q_eqb (of_q f0) _) eqn:Eq; [|discriminate]. cbn in A2. injection A2 as ->. exists f. split; [unfold open_file in A1; destruct (d_ob d file); congruence|].
    unfold q_eqb in Eq. destruct (of_q f) as [[x y] z]. rewrite !andb_true_iff, !Z.eqb_eq in Eq. destruct Eq as [[-> ->] ->]. reflexivity. }
  split; [exact F|]. destruct (xforms_ok c sts M F) as (xs' & E & A). congruence.
Qed.

(** ** operators by orbital *)
Lemma find_ix_first : forall A (p : A -> bool) l i x, nth_error l i = Some x -> p x = true -> (forall j y, nth_error l j = Some y -> p y = true -> j = i) -> find_ix p l = Some i.
Proof.
  intros A p l i x Hx Px U. destruct (find_ix p l) as [j|] eqn:E; [destruct (find_ix_some _ _ _ _ E) as (y & Hy & Py); rewrite (U _ _ Hy Py); reflexivity|].
  rewrite (find_ix_none _ _ _ E x (nth_error_In _ _ Hx)) in Px. discriminate.
Qed.
Lemma position_some : forall sp s a I i, distinct_labels sp -> distinct_n sp -> orbital_at sp I i (LL s (ol_l a) (ol_2j a)) (ol_n a) -> position sp s a = Some (I, i).
Proof.
  intros sp s a I i D1 D2 (ns & E & N). unfold position, look_up_subspace.
  rewrite (find_ix_first _ _ sp I (LL s (ol_l a) (ol_2j a), ns) E); [|apply llabel_eqb_ok; reflexivity|].
  - rewrite E. cbn [snd]. rewrite (find_ix_first _ _ ns i (ol_n a) N); [reflexivity|apply Z.eqb_refl|]. intros j y Hj Ey. apply Z.eqb_eq in Ey. subst y.
    unfold distinct_n in D2. rewrite Forall_forall in D2. assert (ND := D2 _ (nth_error_In _ _ E)). cbn in ND. apply (proj1 (NoDup_nth_error ns) ND); [apply nth_error_Some; congruence|congruence].
  - intros j [l' ns'] Hj Ey. apply llabel_eqb_ok in Ey. cbn in Ey. subst l'. exact (label_index _ _ _ _ _ _ D1 Hj E).
Qed.
Lemma position_inv : forall sp s a I i, position sp s a = Some (I, i) -> orbital_at sp I i (LL s (ol_l a) (ol_2j a)) (ol_n a).
Proof.
  intros sp s a I i H. unfold position in H. destruct (look_up_subspace sp _) as [X|] eqn:E; [|discriminate]. destruct (nth_error sp X) as [[l ns]|] eqn:En; [|discriminate].
  destruct (find_ix _ _) as [j|] eqn:Ej; [|discriminate]. injection H as -> ->. apply find_ix_some in Ej. destruct Ej as (y & Hy & Ey). apply Z.eqb_eq in Ey. subst y.
  apply find_ix_some in E. destruct E as ([l' ns'] & E1 & E2). rewrite En in E1. injection E1 as <- <-. apply llabel_eqb_ok in E2. cbn in E2. subst l. exists ns. auto.
Qed.
Lemma element_entry : forall sp sp' s m sa a sb b I i K k, position sp sa a = Some (I, i) -> position sp' sb b = Some (K, k) -> HmModel.element sp sp' s m sa a sb b = entry s m I i K k.
Proof.
  intros sp sp' s m sa a sb b I i K k H H0. unfold HmModel.element. rewrite H, H0. clear H H0. unfold look_up_sector. revert m. induction s as [|[I' K'] s IH]; intros m; [reflexivity|]. cbn [find_ix entry].
  destruct (sector_eqb (I, K) (I', K')) eqn:E.
  - apply sector_eqb_ok in E. injection E as <- <-. destruct m as [|b0 m]; [reflexivity|]. cbn [nth_error]. destruct (Nat.eq_dec I I); [|contradiction]. destruct (Nat.eq_dec K K); [reflexivity|contradiction].
  - assert (N : ~ (I' = I /\ K' = K)) by (intros [-> ->]; assert (sector_eqb (I, K) (I, K) = true) by (apply sector_eqb_ok; reflexivity); congruence).
    destruct m as [|b0 m]; [destruct (find_ix _ s); reflexivity|]. rewrite <- IH.
    replace (if Nat.eq_dec I' I then if Nat.eq_dec K' K then at_ b0 i k else _ else _) with (match find_ix (sector_eqb (I, K)) s with Some n => match nth_error m n with Some m0 => at_ m0 i k | None => 0 end | None => 0 end)
      by (destruct (Nat.eq_dec I' I); [destruct (Nat.eq_dec K' K); [exfalso; apply N; auto|]|]; reflexivity).
    destruct (find_ix _ s); reflexivity.
Qed.
Lemma known_op : forall ops id sp q f, holds ops id sp q f -> distinct_labels sp -> distinct_n sp ->
  exists op, assoc (known_ops ops) id = Some (ospace_of sp, op) /\ represents sp q f op.
Proof.
  intros ops id sp [[J0 g0] Tz0] f (s & m & E & T & V) D1 D2. exists (obop_of (data_of sp (J0, g0, Tz0) s m) (J0, g0, Tz0)). split.
  - clear T V. induction ops as [|[x o] ops IH]; [discriminate|]. cbn [assoc] in E. unfold known_ops. cbn [flat_map snd fst]. destruct (String.eqb_spec id x) as [->|Hne].
    + injection E as ->. cbn [data_of od_q od_space]. cbn [app assoc]. rewrite String.eqb_refl. reflexivity.
    + destruct (od_q o); cbn [app assoc]; [destruct (String.eqb_spec id x); [contradiction|]|]; apply IH; exact E.
  - split; [reflexivity|]. intros x y. cbn [obop_of SepModel.ob_me data_of od_space od_sectors od_blocks]. split.
    + intros I i K k Hx Hy. unfold at_orbital in *. rewrite (element_entry sp sp s m _ _ _ _ I i K k (position_some _ _ _ _ _ D1 D2 Hx) (position_some _ _ _ _ _ D1 D2 Hy)).
      apply V; eapply orbital_sub; eassumption.
    + intros H. unfold HmModel.element. destruct (position sp (o_sp x) (o_lab x)) as [[I i]|] eqn:Ex; [|reflexivity]. destruct (position sp (o_sp y) (o_lab y)) as [[K k]|] eqn:Ey; [|reflexivity].
      exfalso. destruct H as [H|H]; [exact (H I i (position_inv _ _ _ _ _ Ex))|exact (H K k (position_inv _ _ _ _ _ Ey))].
Qed.
Lemma holds_q : forall ops id sp q f, holds ops id sp q f -> HmModel.set_q ops id = Ok tt.
Proof. intros ops id sp q f (s & m & E & _). unfold HmModel.set_q. rewrite E. reflexivity. Qed.

(** overlaps of the file of a transformation *)
Lemma overlaps_file : forall f, distinct_labels (of_bra f) -> distinct_n (of_bra f) -> distinct_labels (of_ket f) -> distinct_n (of_ket f) ->
  exists u, overlaps_by (overlaps_of f) u /\ overlaps_in f u.
Proof.
  intros f D1 D2 D3 D4. exists (fun x y => if osp_eqb (o_sp x) (o_sp y) && same_lj (o_lab x) (o_lab y) then overlaps_of f (o_sp x) (o_lab x) (o_lab y) else 0).
  assert (B : forall x y, reflect (same_slj x y) (osp_eqb (o_sp x) (o_sp y) && same_lj (o_lab x) (o_lab y))).
  { intros x y. apply iff_reflect. unfold same_slj. rewrite andb_true_iff, same_lj_eq. split; [intros [-> H]; split; [destruct (o_sp y); reflexivity|exact H]|intros [E H]; split; [destruct (o_sp x), (o_sp y); try reflexivity; discriminate|exact H]]. }
  split.
  - intros x y. destruct (B x y) as [S|S]; split; intros H; try reflexivity; contradiction.
  - intros x y. split.
    + intros I i K k S Hx Hy. destruct (B x y) as [S'|S']; [|contradiction]. unfold overlaps_of, file_entry.
      apply element_entry; [|rewrite (proj1 S)]; apply position_some; assumption.
    + intros H. destruct (B x y) as [S|S]; [|reflexivity]. unfold overlaps_of, HmModel.element.
      destruct (position (of_bra f) (o_sp x) (o_lab x)) as [[I i]|] eqn:Ex; [|reflexivity]. destruct (position (of_ket f) (o_sp x) (o_lab y)) as [[K k]|] eqn:Ey; [|reflexivity].
      exfalso. rewrite (proj1 S) in Ey. destruct H as [H|[H|H]]; [exact (H S)|exact (H I i (position_inv _ _ _ _ _ Ex))|exact (H K k (position_inv _ _ _ _ _ Ey))].
Qed.
Lemma sector_found : forall l ts, (exists i s, nth_error l i = Some s /\ same_sector s ts) \/ (forall s, In s l -> ~ same_sector s ts).
Proof.
  intros l ts. induction l as [|s l IH]; [right; intros s []|].
  assert (D : forall x y, sub_labels x = sub_labels y \/ sub_labels x <> sub_labels y).
  { intros x y. destruct (labels_eqb (sub_labels x) (sub_labels y)) eqn:E; [left; apply labels_eqb_ok; exact E|right; intros E'; apply labels_eqb_ok in E'; congruence]. }
  destruct (D (s_bra s) (s_bra ts)) as [E1|E1], (D (s_ket s) (s_ket ts)) as [E2|E2]; [left; exists 0%nat, s; repeat split; assumption|..];
  (destruct IH as [(i & x & H)|H]; [left; exists (S i), x; exact H|right; intros x [<-|Hx]; [intros [Q1 Q2]; contradiction|exact (H x Hx)]]).
Qed.
Definition pair_of (os : ospace) (s : subspace) (i : nat) : orb * orb :=
  (Orb (sp1 (ss_species s)) (fst (st s i)) (orb1 os s (st s i)), Orb (sp2 (ss_species s)) (snd (st s i)) (orb2 os s (st s i))).
Lemma pair_of_ok : forall os s i, XformSpec.states_ok os s -> (i < length (ss_states s))%nat -> orbs_of os s i (pair_of os s i).
Proof.
  intros os s i [_ H] L. assert (N : nth_error (ss_states s) i = Some (st s i)) by (unfold st; apply nth_error_nth'; exact L).
  rewrite Forall_forall in H. destruct (allowed_orbs os s _ (H _ (nth_error_In _ _ N))) as [H1 H2].
  exists (orb1 os s (st s i)), (orb2 os s (st s i)). split; [exists (fst (st s i)), (snd (st s i)); rewrite N; destruct (st s i); repeat split; assumption|].
  cbn. rewrite N. destruct (st s i). repeat split; reflexivity.
Qed.
Lemma sector_of_ok : forall os sp x, space_ok os sp -> sector_of sp x -> sector_ok x.
Proof.
  intros os sp x S [B K]. split.
  - intros E. rewrite E in B. congruence.
  - intros E. apply (proj1 (NoDup_nth_error (map sub_labels sp)) (so_labels _ _ S)); [rewrite map_length; apply nth_error_Some; congruence|].
    rewrite !nth_error_map, B, K. cbn. congruence.
Qed.
Lemma assoc_map : forall {A B} (g : A -> B) (l : list (string * A)) id, assoc (map (fun p => (fst p, g (snd p))) l) id = option_map g (assoc l id).
Proof. intros A B g l id. induction l as [|[x a] l IH]; [reflexivity|]. cbn. destruct (String.eqb id x); [reflexivity|exact IH]. Qed.

(** ** one source *)
Definition channel_worth (sts : list statement) (env : list (string * opval)) (rp : params) (tgt : tindex) (s : tb_source) (c : string * channel) : Prop :=
  fst c = tb_id s /\ forall ts, In ts (ti_sectors tgt) -> exists v, populate F1 F2 F12 rp tgt ts c = Ok v /\ (forall x, v = Some x -> dims x ts)
  /\ forall a b, (a < length (ss_states (s_bra ts)))%nat -> (b < length (ss_states (s_ket ts)))%nat ->
     worth d sts F1 F2 F12 env tgt ts a b s (match v with Some x => at_ x a b | None => 0 end).
Lemma source_ok : forall c sts env xs ops tgt s, means c sts -> target_fine sts tgt -> (forall id, assoc xs id = xform_of d sts id) -> (forall id sp q f, assoc env id = Some (sp, q, f) -> holds ops id sp q f) ->
  usable d sts F12 env tgt s ->
  exists ch, tb_channel d c xs ops tgt s = Ok ch /\ let '(J0, g0, Tz0) := the_q sts in channel_worth sts env (Params J0 g0 Tz0 (last_of mass_of sts)) tgt s ch.
Proof.
  intros c sts env xs ops tgt s M [T1 T2 T3] Hxs Henv U. unfold tb_channel. rewrite (m_q _ _ M), (m_mass _ _ M). fold (the_q sts). destruct (the_q sts) as [[J0 g0] Tz0] eqn:Q.
  assert (Sec : forall ts, In ts (ti_sectors tgt) -> sector_of (ti_space tgt) ts) by (intros ts Hts; exact (proj1 (Forall_forall _ _) (xk_sectors _ T1) ts Hts)).
  destruct s; cbn [usable] in U.
  - destruct U as (h & Eh & Fh). rewrite Eh. cbn [open_file bind initialize].
    destruct (remap_spec (ti_orb (if_ix (h_file h))) (ti_orb tgt) _ _ (xk_space _ (fk_index _ Fh)) (xk_space _ T1)) as (mp & Emp & _). rewrite Emp. cbn [bind].
    eexists. split; [reflexivity|]. split; [reflexivity|]. intros ts Hts. destruct (MixProof.input_channel (h_file h) tgt ts Fh T1 (Sec ts Hts)) as (mp' & E' & v & Ev & Dv & Lv).
    rewrite Emp in E'. injection E' as <-. exists v. split; [exact Ev|]. split; [exact Dv|]. intros a b Ha Hb. econstructor; [exact Eh|exact (Lv a b Ha Hb)].
  - destruct U as (-> & (A & EA & HA) & Diag). cbn [initialize]. eexists. split; [reflexivity|]. split; [reflexivity|]. intros ts Hts.
    destruct (identity_matrix_ok ts A (Diag ts Hts) (proj1 HA) (proj2 HA)) as (r & Er & R1 & R2 & R3). exists (Some r). split.
    + unfold populate, mass. cbn [snd fst rp_A]. rewrite EA. cbn [bind]. change (String.eqb "identity" "identity") with true. cbv iota. rewrite Er. reflexivity.
    + assert (B : s_bra ts = s_ket ts) by (destruct (Sec ts Hts) as [S1 S2]; rewrite (Diag ts Hts) in S1; congruence).
      split; [intros x Hx; injection Hx as <-; split; [rewrite R1, B; reflexivity|exact R2]|]. intros a b _ _. econstructor; [exact EA|].
      destruct (R3 a b) as [X1 X2]. destruct (Nat.eqb_spec a b); [exact (X1 e)|rewrite (X2 n); lra].
  - destruct U as (sp & f & A & E & D1 & D2 & EA & HA). assert (H := Henv _ _ _ _ E). rewrite (holds_q _ _ _ _ _ H). cbn [bind]. destruct (known_op ops ob sp _ f H D1 D2) as (op & Eo & Ro).
    destruct (operator_U F1 F2 F12 (Params J0 g0 Tz0 (last_of mass_of sts)) (map (fun p => (fst p, overlaps_of (snd p))) xs) (known_ops ops) tgt id ob _ op Eo) as [_ G].
    destruct (G (eq_trans (proj1 Ro) Q)) as (ch & E1 & E2 & E3). exists ch. split; [exact E1|]. split; [exact E2|]. intros ts Hts. destruct (T3 ts Hts) as (I1 & I2 & I3).
    destruct (E3 A ts EA HA T2 I1 I2 I3) as (r & P1 & P2 & P3). exists (Some r). split; [exact P1|]. split; [intros x Hx; injection Hx as <-; exact P2|]. intros a b _ _.
    eapply worth_U; [exact E|exact EA|exact Ro|]. intros c0 d0 p r0 O1 O2. exact (P3 a b c0 d0 p r0 O1 O2).
  - destruct U as (sp & q1 & f1 & q2 & f2 & Ea & Eb & D1 & D2 & PQ & Sy). assert (Ha := Henv _ _ _ _ Ea). assert (Hb := Henv _ _ _ _ Eb).
    rewrite (holds_q _ _ _ _ _ Ha), (holds_q _ _ _ _ _ Hb). cbn [bind]. destruct (known_op ops a sp q1 f1 Ha D1 D2) as (opa & Eoa & Ra). destruct (known_op ops b sp q2 f2 Hb D1 D2) as (opb & Eob & Rb).
    destruct (operator_V F1 F2 F12 (Params J0 g0 Tz0 (last_of mass_of sts)) (map (fun p => (fst p, overlaps_of (snd p))) xs) (known_ops ops) tgt id a b scale _ _ opa opb Eoa Eob) as [_ G].
    assert (C : couple (Params J0 g0 Tz0 (last_of mass_of sts)) opa opb).
    { destruct Ra as [Ra _]. destruct Rb as [Rb _]. destruct q1 as [[Ja ga] Ta]. destruct q2 as [[Jb gb] Tb]. rewrite Q in PQ. injection Ra as A1 A2 A3. injection Rb as B1 B2 B3. destruct PQ as (P1 & P2 & P3).
      unfold couple. cbn [rp_J0 rp_g0 rp_Tz0]. rewrite A1, A2, A3, B1, B2, B3. split; [exact P1|]. split; [exact P2|exact P3]. }
    destruct (G (conj eq_refl eq_refl) C) as (ch & E1 & E2 & E3). exists ch. split; [exact E1|]. split; [exact E2|]. intros ts Hts. destruct (T3 ts Hts) as (I1 & I2 & I3).
    assert (Sy' : SepModel.ob_J0 opa = SepModel.ob_J0 opb -> exchange_symmetric F12 (SepModel.ob_J0 opa) J0).
    { destruct Ra as [Ra _]. destruct Rb as [Rb _]. destruct q1 as [[Ja ga] Ta]. destruct q2 as [[Jb gb] Tb]. injection Ra as A1 A2 A3. injection Rb as B1 B2 B3. rewrite A1, B1. intros Ej. rewrite Q in Sy. exact (Sy Ej). }
    destruct (E3 ts Sy' T2 I1 I2 I3) as (r & P1 & P2 & P3). exists (Some r). split; [exact P1|]. split; [intros x Hx; injection Hx as <-; exact P2|]. intros i j _ _.
    eapply worth_V; [exact Ea|exact Eb|exact Ra|exact Rb|]. intros c0 d0 p r0 O1 O2. rewrite Q. exact (P3 i j c0 d0 p r0 O1 O2).
  - destruct U as (h & f & Eh & Fh & Ip & Sp & St & Ef & D1 & D2 & D3 & D4). rewrite Eh. cbn [open_file bind]. rewrite Q in Ip, Sp. set (pre := h_pre h w (J0, g0, Tz0)) in *.
    assert (Ax : assoc (map (fun p => (fst p, overlaps_of (snd p))) xs) xf = Some (overlaps_of f)) by (rewrite (assoc_map overlaps_of), Hxs, Ef; reflexivity).
    destruct (xform_channel F1 F2 F12 (Params J0 g0 Tz0 (last_of mass_of sts)) _ (known_ops ops) tgt id (h_file h) pre xf _ Fh Ip T1 Ax) as (ch & E1 & E2 & E3 & E4).
    exists ch. split; [exact E1|]. split; [exact E2|]. intros ts Hts. destruct (overlaps_file f D1 D2 D3 D4) as (u & U1 & U2). destruct (St ts Hts) as [St1 St2].
    assert (Half : forall ix, index_ok ix -> orbitals_half (ti_orb ix)).
    { intros ix [Hx _ _] sp. eapply Forall_impl; [|exact (so_halfint _ _ Hx sp)]. intros o Ho. exact (proj1 Ho). }
    destruct (sector_found (ti_sectors pre) ts) as [(j & ps & Nj & Sj)|None1].
    + assert (Hps := nth_error_In _ _ Nj). destruct (Sp ps Hps) as [Sp1 Sp2].
      assert (W : forall p x a b, (a < length (ss_states (s_bra ts)))%nat -> (b < length (ss_states (s_ket ts)))%nat ->
        (forall i j, (i < length (ss_states (s_bra ps)))%nat -> (j < length (ss_states (s_ket ps)))%nat -> labelled (h_file h) pre ps i j (p i j)) ->
        x = rsum (length (ss_states (s_bra ps))) (fun i => rsum (length (ss_states (s_ket ps))) (fun j => state_overlap u (pair_of (ti_orb pre) (s_bra ps) i) (pair_of (ti_orb tgt) (s_bra ts) a) (ss_J (s_bra ps)) * p i j
              * state_overlap u (pair_of (ti_orb pre) (s_ket ps) j) (pair_of (ti_orb tgt) (s_ket ts) b) (ss_J (s_ket ps)))) ->
        worth d sts F1 F2 F12 env tgt ts a b (TXform id file w xf) x).
      { intros p x a b La Lb Lp Hx. refine (worth_xform d sts F1 F2 F12 env tgt ts a b id file w xf h f u ps _ _ p _ _ _ _ x Eh Ef U2 _ Sj eq_refl eq_refl _ _ _ _ _ Hx); rewrite ?Q;
          [exact Hps|exact Lp|intros i Hi; apply pair_of_ok; assumption|intros i Hi; apply pair_of_ok; assumption|apply pair_of_ok; assumption|apply pair_of_ok; assumption]. }
      destruct (sector_found (ti_sectors (if_ix (h_file h))) ts) as [(i & s & Ni & Si)|None2].
      * destruct (E3 i j s ps ts Ni Nj (Sec ts Hts) Si Sj) as (p & Dp & Lp & Ep).
        destruct (elements_ok (overlaps_of f) u (ti_orb pre) (ti_orb tgt) ps ts p U1 (Half pre Ip) (Half tgt T1) Sp1 Sp2 St1 St2) as (r & Er & Dr & Vr); try assumption.
        { exact (sector_of_ok _ _ _ (xk_space _ Ip) (proj1 (Forall_forall _ _) (xk_sectors _ Ip) ps Hps)). }
        { exact (sector_of_ok _ _ _ (xk_space _ T1) (Sec ts Hts)). }
        exists (Some r). rewrite Ep, Er. split; [reflexivity|]. split; [intros x Hx; injection Hx as <-; exact Dr|]. intros a b La Lb.
        destruct Dp as [Rp Cp]. apply (W (at_ p)); [exact La|exact Lb|exact Lp|]. rewrite <- Rp, <- Cp.
        apply Vr; [intros k Hk; apply pair_of_ok; [assumption|congruence]..|apply pair_of_ok; assumption|apply pair_of_ok; assumption].
      * exists None. rewrite (E4 ts (Sec ts Hts) (or_introl None2)). split; [reflexivity|]. split; [intros x Hx; discriminate|]. intros a b La Lb.
        apply (W (fun _ _ => 0)); [exact La|exact Lb| |].
        { intros i k _ _. apply lab_no_sector. intros s Hs [Q1 Q2]. destruct Sj as [Q3 Q4]. apply (None2 s Hs). split; congruence. }
        symmetry. apply rsum_0. intros i _. apply rsum_0. intros k _. ring.
    + exists None. rewrite (E4 ts (Sec ts Hts) (or_intror None1)). split; [reflexivity|]. split; [intros x Hx; discriminate|]. intros a b La Lb.
      eapply worth_xform_none; [exact Eh|rewrite Q; exact None1].
Qed.
(** ** the program *)
Lemma channels_ok : forall c sts env xs ops tgt l J0 g0 Tz0, the_q sts = (J0, g0, Tz0) -> means c sts -> target_fine sts tgt -> (forall id, assoc xs id = xform_of d sts id) -> (forall id sp q f, assoc env id = Some (sp, q, f) -> holds ops id sp q f) ->
  Forall (usable d sts F12 env tgt) l ->
  exists cs, map_blocks (tb_channel d c xs ops tgt) l = Ok cs /\ Forall2 (channel_worth sts env (Params J0 g0 Tz0 (last_of mass_of sts)) tgt) l cs.
Proof.
  intros c sts env xs ops tgt l J0 g0 Tz0 Q M T Hxs Henv U. induction U as [|s l Us U IH]; [exists []; split; [reflexivity|constructor]|].
  destruct IH as (cs & E & F). destruct (source_ok c sts env xs ops tgt s M T Hxs Henv Us) as (ch & Ech & W). rewrite Q in W. exists (ch :: cs). cbn [map_blocks]. rewrite Ech. cbn [bind]. rewrite E. cbn [bind].
  split; [reflexivity|constructor; assumption].
Qed.
Hypothesis racah_zero : forall j' j j'' Ja Jb J, ~ coupled j (2 * J) j' -> racah j' j j'' Ja Jb J = 0.
Theorem program_ok : forall lines sts os tgt env, Forall2 says lines sts -> placed sts -> setting sts os tgt -> xforms_fine d sts ->
  stage d crme am_rme racah (forget (mk_wspace os)) (xform_of d sts) (the_channels sts) env ->
  target_fine sts tgt -> NoDup (map tb_id (all_of tb_of sts)) -> Forall (usable d sts F12 env tgt) (all_of tb_of sts) ->
  exists out, h2mixer lines = Ok (all_of target_of sts, out) /\ length out = length (ti_sectors tgt)
  /\ forall i ts row, nth_error (ti_sectors tgt) i = Some ts -> nth_error out i = Some row ->
     length row = length (all_of target_of sts)
  /\ forall k name terms m, nth_error (sections target_of term_of sts) k = Some (name, terms) -> nth_error row k = Some m ->
     dims m ts /\ forall a b, (a < rows m)%nat -> (b < cols m)%nat ->
     exists v, (forall s, In s (all_of tb_of sts) -> worth d sts F1 F2 F12 env tgt ts a b s (v (tb_id s)))
       /\ (forall id, ~ In id (map tb_id (all_of tb_of sts)) -> v id = 0) /\ chopped tol (combination terms v) (at_ m a b).
Proof.
  intros lines sts os tgt env HS HP ST HX SG TF ND US. destruct (control_ok lines sts HS HP) as (c & Ec & M). unfold HmModel.h2mixer. rewrite Ec. cbn [bind].
  rewrite (target_ok c sts os tgt M ST). cbn [bind]. destruct (xforms_ok c sts M HX) as (xs & Ex & Ax). rewrite Ex. cbn [bind].
  destruct (stage_ok d spline crme am_rme inv_sqrt_4pi racah racah_zero _ xs (xform_of d sts) _ env Ax SG) as (ops & Eo & _ & Henv).
  rewrite (m_ob _ _ M). fold (the_channels sts). rewrite Eo. cbn [bind]. rewrite (m_tb _ _ M), (m_q _ _ M), (m_mass _ _ M), (m_targets _ _ M). fold (the_q sts).
  destruct (the_q sts) as [[J0 g0] Tz0] eqn:Q. destruct (channels_ok c sts env xs ops tgt _ J0 g0 Tz0 Q M TF Ax Henv US) as (cs & Ecs & W). rewrite Ecs. cbn [bind].
  set (rp := Params J0 g0 Tz0 (last_of mass_of sts)) in *.
  assert (Efst : map fst cs = map tb_id (all_of tb_of sts)).
  { clear - W. induction W as [|s ch l cs [E _] W IH]; [reflexivity|]. cbn. rewrite E, IH. reflexivity. }
  assert (ND' : NoDup (map fst cs)) by (rewrite Efst; exact ND).
  assert (Hc : forall ch, In ch cs -> exists s, In s (all_of tb_of sts) /\ channel_worth sts env rp tgt s ch).
  { clear - W. induction W as [|s ch l cs Hs W IH]; intros ch' []; [subst; exists s; split; [left; reflexivity|exact Hs]|]. destruct (IH ch' H) as (s' & H1 & H2). exists s'. split; [right; exact H1|exact H2]. }
  assert (Hs : forall s, In s (all_of tb_of sts) -> exists ch, In ch cs /\ channel_worth sts env rp tgt s ch).
  { clear - W. induction W as [|s ch l cs Hs W IH]; intros s' []; [subst; exists ch; split; [left; reflexivity|exact Hs]|]. destruct (IH s' H) as (ch' & H1 & H2). exists ch'. split; [right; exact H1|exact H2]. }
  destruct (run_ok F1 F2 F12 tol rp tgt cs (map snd (sections target_of term_of sts)) ND') as (out & Eout).
  { intros ts ch Hts Hin. destruct (Hc ch Hin) as (s & _ & _ & Hw). destruct (Hw ts Hts) as (v & V1 & V2 & _). exists v. auto. }
  rewrite Eout. cbn [bind]. rewrite map_fst_sections. exists out. split; [reflexivity|].
  destruct (run_spec F1 F2 F12 tol rp tgt cs _ out ND' Eout) as [L R]. split; [exact L|]. intros i ts row Hts Hrow. destruct (R i ts row Hts Hrow) as [RL RR].
  split; [rewrite RL, map_length, <- map_fst_sections with (it := term_of), map_length; reflexivity|].
  intros k name terms m Hk Hm. assert (Hk' : nth_error (map snd (sections target_of term_of sts)) k = Some terms) by (rewrite nth_error_map, Hk; reflexivity).
  destruct (RR k terms m Hk' Hm) as [Dm V]. split; [exact Dm|]. intros a b Ha Hb. destruct (V a b Ha Hb) as (v & (P1 & P2 & P3) & Ch). exists v. split; [|split; [|exact Ch]].
  - intros s Hin. destruct (Hs s Hin) as (ch & Hch & Ei & Hw). destruct (Hw ts (nth_error_In _ _ Hts)) as (x & X1 & X2 & X3). assert (Hx := X3 a b).
    destruct Dm as [D1 D2]. rewrite <- Ei. destruct x as [x|].
    + rewrite (P1 ch x Hch X1). apply X3; [rewrite <- D1; exact Ha|rewrite <- D2; exact Hb].
    + rewrite (P2 ch Hch X1). apply X3; [rewrite <- D1; exact Ha|rewrite <- D2; exact Hb].
  - intros id Hid. apply P3. rewrite Efst. exact Hid.
Qed.
(** what every run that ends well has done *)
Theorem program_inv : forall lines names out, h2mixer lines = Ok (names, out) -> exists sts os tgt, Forall2 says lines sts /\ placed sts /\ setting sts os tgt /\ xforms_fine d sts
  /\ NoDup (map id_of (the_channels sts)) /\ names = all_of target_of sts /\ length out = length (ti_sectors tgt) /\ Forall (fun row => length row = length names) out.
Proof.
  intros lines names out H. unfold HmModel.h2mixer in H. apply bind_inv in H. destruct H as (c & Ec & H). destruct (control_inv lines c Ec) as (sts & HS & HP & M).
  apply bind_inv in H. destruct H as ([os tgt] & Et & H). apply bind_inv in H. destruct H as (xs & Ex & H). apply bind_inv in H. destruct H as (ops & Eo & H). apply bind_inv in H. destruct H as (cs & Ecs & H).
  destruct (c_q c) as [[J0 g0] Tz0]. apply bind_inv in H. destruct H as (out' & Er & H). injection H as <- <-. exists sts, os, tgt. split; [exact HS|]. split; [exact HP|]. split; [exact (target_inv c sts os tgt M Et)|].
  split; [exact (proj1 (xforms_inv c sts xs M Ex))|]. split; [unfold the_channels; rewrite <- (m_ob _ _ M); exact (proj2 (names_once _ _ _ _ _ _ _ _ _ _ Eo))|].
  rewrite (m_targets _ _ M), map_fst_sections. split; [reflexivity|]. unfold run in Er. destruct (map_blocks_nth _ _ _ _ _ Er) as [L N]. split; [exact L|].
  apply Forall_forall. intros row Hrow. apply In_nth_error in Hrow. destruct Hrow as [i Hi].
  destruct (nth_error (ti_sectors tgt) i) as [ts|] eqn:Ets; [|apply nth_error_None in Ets; assert (nth_error out' i <> None) by congruence; apply nth_error_Some in H; lia].
  assert (E := N i ts row Ets Hi). unfold run_sector in E. apply bind_inv in E. destruct E as (sm & _ & E). apply map_blocks_nth in E. destruct E as [E _]. rewrite E, map_length, (m_targets _ _ M).
  rewrite <- map_fst_sections with (it := term_of), map_length. reflexivity.
Qed.
End Final.
