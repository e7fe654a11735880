From Coq Require Import List ZArith Reals Bool Sorted Permutation Lia Lra.
From Verif Require Import Base BaseLemmas RMat H2Model MapModel OscModel OscSpec OscProof BlockModel BlockSpec BlockProof BlockFinal
  ObioModel ObioProof ObmModel ObmSpec ObmProof ObmFinal ObmFin2 NatModel NatSpec NatProof NatFinal.
Import ListNotations.
Open Scope R_scope.

Lemma op_nth : forall bra ket s ms q x, op_ok bra ket s ms -> nth_error s q = Some x -> exists m, nth_error ms q = Some m
  /\ rows m = sub_dim bra (fst x) /\ cols m = sub_dim ket (snd x).
Proof.
  intros bra ket s ms q x [_ H]. revert q. induction H as [|y m s ms Hy H IH]; intros [|q] Hq; try discriminate; cbn in *.
  - injection Hq as <-. exists m. tauto.
  - apply IH. exact Hq.
Qed.
Lemma op_length : forall bra ket s ms, op_ok bra ket s ms -> length ms = length s.
Proof. intros bra ket s ms [_ H]. induction H; cbn; congruence. Qed.
Lemma diag_nth : forall n I, (I < n)%nat -> nth_error (map (fun i : nat => (i, i)) (seq 0 n)) I = Some (I, I).
Proof.
  intros n I H. rewrite nth_error_map. rewrite (nth_error_nth' _ 0%nat) by (rewrite seq_length; exact H). cbn. rewrite seq_nth by exact H. reflexivity.
Qed.

Section Main.
Variable solve : mat R -> list R * mat R.
Variable sort : list (oinfo R) -> list (oinfo R).
Variable os : list (oinfo R).
Variable d : density.
Variable ms : blocks R.
Variable info : bool.
Hypothesis Hsort : sorts sort.
Hypothesis Hspin : spin_orbitals os.
Notation sp := (forget (mk_wspace os)).
Hypothesis Hd : density_ok sp d ms.
Hypothesis Hsolve : Forall (solves solve) ms.
Notation os' := (sort (orbital_info (mk_wspace os))).
Notation s := (sectors_of sp sp (0, 0, 0)%Z).
Notation us := (map (fun m => reverse_columns (snd (solve m))) ms).
Notation f := (RFile true (0, 0, 0)%Z (mk_wspace os) (mk_wspace os') s us).
Notation occ := (occ_of solve ms).

Lemma os'_perm : Permutation os os'.
Proof. etransitivity; [symmetry; apply info_perm|]. apply Hsort. Qed.
Lemma os_ok : orbitals_ok (mk_wspace os).
Proof. exists os. auto. Qed.
Lemma os'_ok : orbitals_ok (mk_wspace os').
Proof.
  exists os'. split; [|reflexivity]. unfold spin_orbitals in *. rewrite Forall_forall in *. intros o Ho. apply Hspin. eapply Permutation_in; [symmetry; apply os'_perm|exact Ho].
Qed.
Lemma ms_op : op_ok sp sp s ms.
Proof. apply Hd. Qed.
Lemma ms_at : forall I, (I < length sp)%nat -> exists m, nth_error ms I = Some m /\ rows m = sub_dim sp I /\ cols m = sub_dim sp I /\ solves solve m.
Proof.
  intros I HI. destruct (op_nth _ _ _ _ I (I, I) ms_op) as (m & Em & R & C); [rewrite (scalar_diag _ os_ok); apply diag_nth; exact HI|].
  exists m. repeat (split; [assumption|]). rewrite Forall_forall in Hsolve. apply Hsolve. eapply nth_error_In. exact Em.
Qed.
Lemma ms_ext : forall q m, nth_error ms q = Some m -> (q < length sp)%nat.
Proof.
  intros q m H. assert (L : length ms = length s) by (eapply op_length; apply ms_op). rewrite (scalar_diag _ os_ok), map_length, seq_length in L.
  rewrite <- L. apply nth_error_Some. congruence.
Qed.
Lemma out_sectors : sectors_of sp (forget (mk_wspace os')) (0, 0, 0)%Z = s.
Proof. apply same_sectors. rewrite !forget_labels. apply perm_labels, os'_perm. Qed.
Lemma us_op : op_ok sp (forget (mk_wspace os')) s us.
Proof.
  destruct ms_op as [Hn H]. split; [exact Hn|]. assert (Hall : forall m, In m ms -> solves solve m) by (apply Forall_forall; exact Hsolve).
  assert (G : Forall2 (fun x m => fst x = snd x) s ms).
  { assert (G : forall (l : list nat) (k : blocks R), length k = length l -> Forall2 (fun (x : nat * nat) (_ : mat R) => fst x = snd x) (map (fun i => (i, i)) l) k).
    { induction l as [|i l IH]; intros [|m k] L; try discriminate; cbn; constructor; [reflexivity|]. apply IH. cbn in L. congruence. }
    pose proof (op_length _ _ _ _ ms_op) as L. rewrite (scalar_diag _ os_ok) in L |- *. apply G. rewrite map_length in L. exact L. }
  revert H G Hall. generalize s ms. intros s' ms' H. induction H as [|x m s' ms' Hx H IH]; intros G Hall; cbn [map]; constructor.
  - assert (Ge : fst x = snd x) by (inversion G; assumption). destruct Hx as (H1 & H2 & H3 & H4). destruct (Hall m (or_introl eq_refl)) as (_ & R & C & _). unfold reverse_columns. cbn [rows cols].
    rewrite (perm_length os os' os'_perm), (perm_dims os os' _ os'_perm), R, C, H3. split; [assumption|]. split; [assumption|]. split; [reflexivity|]. rewrite Ge. reflexivity.
  - apply IH; [inversion G; assumption|]. intros m' Hm'. apply Hall. right. exact Hm'.
Qed.
Lemma f_ok : scalar_file f.
Proof. split; [|auto]. split; [exact os_ok|]. split; [exact os'_ok|]. cbn. split; [symmetry; apply out_sectors|apply us_op]. Qed.
Lemma run_ok : exists L, natorb_main solve sort (NPar (mk_wspace os) (Some (sp, d)) (Some info)) = Ok (NatOut os' (if info then Some (rev (sort L)) else None) f) /\ L = occupations sp occ.
Proof.
  destruct Hd as (Hr & Hs & Hb & Hop). unfold natorb_main. cbn [np_dens np_space np_out get bind]. unfold multipole_index.
  rewrite (proj2 (Z.leb_le _ _) (proj1 Hr)), (proj2 (Z.leb_le _ _) (proj2 Hr)). cbn [andb cassert bind]. rewrite Hs, Hb. cbn [get bind].
  destruct (natural_blocks_ok solve sp s ms) as (L & EL & HL).
  { pose proof (proj2 Hop) as H. pose proof Hsolve as Hsv. assert (G : forall s' (ms' : blocks R), Forall2 (fun x b => (fst x < length sp)%nat /\ (snd x < length sp)%nat
    /\ rows b = sub_dim sp (fst x) /\ cols b = sub_dim sp (snd x)) s' ms' -> (forall x, In x s' -> fst x = snd x) -> Forall2 (fun x m => (fst x < length sp)%nat /\ rows m = cols m) s' ms').
    { intros s' ms' H'. induction H' as [|x m s' ms' Hx H' IH]; intros He; constructor.
      - split; [tauto|]. rewrite (proj1 (proj2 (proj2 Hx))), (proj2 (proj2 (proj2 Hx))). rewrite (He x (or_introl eq_refl)). reflexivity.
      - apply IH. intros y Hy. apply He. right. exact Hy. }
    apply G; [exact H|]. intros x Hx. rewrite (scalar_diag _ os_ok) in Hx. apply in_map_iff in Hx. destruct Hx as (i & <- & _). reflexivity. }
  rewrite EL. cbn [bind]. rewrite out_sectors. cbn [check bind]. rewrite write_rfile_op by exact us_op. cbn [bind]. exists L. split; [destruct info; reflexivity|].
  rewrite HL, (scalar_diag _ os_ok). unfold occupations.
  assert (G : forall (ls : list (llabel * list Z)) (k : blocks R) a, length k = length ls ->
    (forall i x m, nth_error ls i = Some x -> nth_error k i = Some m -> nth_error sp (a + i) = Some x /\ nth_error ms (a + i) = Some m /\ length (rev (fst (solve m))) = length (snd x)) ->
    flat_map (fun xm : (nat * nat) * mat R => match nth_error sp (fst (fst xm)) with Some lab => lines_of (fst lab) (rev (fst (solve (snd xm)))) | None => [] end)
      (combine (map (fun i => (i, i)) (seq a (length ls))) k)
    = flat_map (fun Ix => map (fun i => OI (fst (snd Ix)) (Z.of_nat i) (occ (fst Ix) i)) (seq 0 (length (snd (snd Ix))))) (combine (seq a (length ls)) ls)).
  { induction ls as [|x ls IH]; intros [|m k] a Hlen H; try discriminate; [reflexivity|]. cbn [length seq map combine flat_map fst snd].
    destruct (H 0%nat x m eq_refl eq_refl) as (H1 & H2 & H3). rewrite Nat.add_0_r in H1, H2. rewrite H1. f_equal.
    - rewrite lines_seq, H3. apply map_ext. intros i. unfold occ_of. rewrite H2. reflexivity.
    - apply IH; [cbn in Hlen; congruence|]. intros i y m' Hy Hm'. replace (S a + i)%nat with (a + S i)%nat by lia. apply H; assumption. }
  apply G.
  - rewrite (op_length _ _ _ _ Hop), (scalar_diag _ os_ok), map_length, seq_length. reflexivity.
  - intros i x m Hx Hm. cbn [Nat.add]. split; [exact Hx|]. split; [exact Hm|]. assert (Hi : (i < length sp)%nat) by (apply nth_error_Some; congruence).
    destruct (ms_at i Hi) as (m' & Em & R & C & Hs'). rewrite Hm in Em. injection Em as <-. rewrite (occ_len solve m Hs'), R. unfold sub_dim. rewrite Hx. destruct x. reflexivity.
Qed.
Lemma f_value : forall I a i, (I < length sp)%nat -> exists m, nth_error ms I = Some m /\ rows m = sub_dim sp I /\ solves solve m /\ value f I a I i = at_ (reverse_columns (snd (solve m))) a i.
Proof.
  intros I a i HI. destruct (ms_at I HI) as (m & Em & R & C & Hs). exists m. repeat (split; [assumption|]). unfold value. cbn [rf_sectors rf_blocks].
  apply (entry_found _ _ _ _ _ _ I); [apply sectors_nodup|rewrite (scalar_diag _ os_ok); apply diag_nth; exact HI|]. rewrite nth_error_map, Em. reflexivity.
Qed.
Lemma f_zero : forall A a I i, A <> I -> value f A a I i = 0.
Proof.
  intros A a I i H. unfold value. cbn [rf_sectors rf_blocks]. apply entry_absent. rewrite (scalar_diag _ os_ok). intros Hin. apply in_map_iff in Hin. destruct Hin as (x & E & _). congruence.
Qed.
Lemma rho_value : forall I a b m, nth_error ms I = Some m -> rho sp ms I a I b = at_ m a b.
Proof.
  intros I a b m Em. unfold rho. pose proof (ms_ext I m Em) as HI.
  apply (entry_found _ _ _ _ _ _ I); [apply sectors_nodup|rewrite (scalar_diag _ os_ok); apply diag_nth; exact HI|exact Em].
Qed.
Lemma rho_zero : forall A a B b, A <> B -> rho sp ms A a B b = 0.
Proof.
  intros A a B b H. unfold rho. apply entry_absent. rewrite (scalar_diag _ os_ok). intros Hin. apply in_map_iff in Hin. destruct Hin as (x & E & _). congruence.
Qed.
Lemma lower_value : forall I a b m, nth_error ms I = Some m -> rho_lower sp ms I a I b = mirrored m a b.
Proof. intros I a b m Em. unfold rho_lower, mirrored. rewrite !(rho_value I _ _ m Em). reflexivity. Qed.
Lemma ket_state_f : forall I i, ket_state f I i -> state sp I i.
Proof. intros I i [HI Hi]. cbn [rf_ket] in *. rewrite (perm_length os os' os'_perm) in HI. rewrite (perm_dims os os' _ os'_perm) in Hi. split; assumption. Qed.
Lemma ssum_ket : forall g, sum_over (mk_wspace os') g = sum_over (mk_wspace os) g.
Proof.
  intros g. unfold sum_over, ssum. rewrite (perm_length os os' os'_perm). apply rsum_ext. intros J _. rewrite (perm_dims os os' _ os'_perm). reflexivity.
Qed.
Theorem f_isometry : isometry f.
Proof.
  intros I i K k HI HK. apply ket_state_f in HI. apply ket_state_f in HK. destruct HI as [HI Hi], HK as [HK Hk]. unfold sum_over. cbn [rf_bra].
  rewrite (ssum_subspace sp I); [|exact HI|intros J j _ Hne; rewrite (f_zero J j I i Hne); ring]. unfold delta. destruct (Nat.eqb I K) eqn:E.
  - apply Nat.eqb_eq in E. subst K. cbn [andb]. destruct (f_value I 0 0 HI) as (m & Em & R & Hm & _).
    rewrite <- (U_cols solve m Hm i k) by (rewrite R; assumption). rewrite <- R. apply rsum_ext. intros a _.
    destruct (f_value I a i HI) as (m1 & E1 & _ & _ & ->). destruct (f_value I a k HI) as (m2 & E2 & _ & _ & ->). congruence.
  - apply Nat.eqb_neq in E. cbn [andb]. unfold rsum. apply lsum_0. intros a _. rewrite (f_zero I a K k E). ring.
Qed.
Theorem f_complete : forall A a B b, state sp A a -> state sp B b -> sum_over (mk_wspace os') (fun I i => value f A a I i * value f B b I i) = delta A a B b.
Proof.
  intros A a B b [HA Ha] [HB Hb]. rewrite ssum_ket. unfold sum_over. rewrite (ssum_subspace sp A); [|exact HA|intros J j _ Hne; rewrite (f_zero A a J j) by congruence; ring].
  unfold delta. destruct (Nat.eqb A B) eqn:E.
  - apply Nat.eqb_eq in E. subst B. cbn [andb]. destruct (f_value A 0 0 HA) as (m & Em & R & Hm & _).
    rewrite <- (U_rows solve m Hm a b) by (rewrite R; assumption). rewrite <- R. apply rsum_ext. intros i _.
    destruct (f_value A a i HA) as (m1 & E1 & _ & _ & ->). destruct (f_value A b i HA) as (m2 & E2 & _ & _ & ->). congruence.
  - apply Nat.eqb_neq in E. cbn [andb]. unfold rsum. apply lsum_0. intros i _. rewrite (f_zero B b A i) by congruence. ring.
Qed.
Theorem f_diagonal : forall I i K k, state sp I i -> state sp K k ->
  sum_over (mk_wspace os) (fun A a => sum_over (mk_wspace os) (fun B b => value f A a I i * rho_lower sp ms A a B b * value f B b K k)) = delta I i K k * occ I i.
Proof.
  intros I i K k [HI Hi] [HK Hk]. unfold sum_over. rewrite (ssum_subspace sp I); [|exact HI|intros J j _ Hne; apply ssum_0; intros B b _; rewrite (f_zero J j I i Hne); ring].
  transitivity (rsum (sub_dim sp I) (fun a => rsum (sub_dim sp K) (fun b => value f I a I i * rho_lower sp ms I a K b * value f K b K k))).
  { apply rsum_ext. intros a _. apply ssum_subspace; [exact HK|]. intros J j _ Hne. rewrite (f_zero J j K k Hne). ring. }
  unfold delta. destruct (Nat.eqb I K) eqn:E.
  - apply Nat.eqb_eq in E. subst K. cbn [andb]. destruct (f_value I 0 0 HI) as (m & Em & R & Hm & _).
    assert (Eo : occ I i = nth i (rev (fst (solve m))) 0) by (unfold occ_of; rewrite Em; reflexivity). rewrite Eo.
    transitivity (if Nat.eqb i k then nth i (rev (fst (solve m))) 0 else 0); [|destruct (Nat.eqb i k); ring].
    rewrite <- (U_diag solve m Hm i k) by (rewrite R; assumption). rewrite <- R. apply rsum_ext. intros a _. apply rsum_ext. intros b _.
    destruct (f_value I a i HI) as (m1 & E1 & _ & _ & ->). destruct (f_value I b k HI) as (m2 & E2 & _ & _ & ->).
    rewrite (lower_value I a b m Em). congruence.
  - apply Nat.eqb_neq in E. cbn [andb]. unfold rsum. rewrite lsum_0; [ring|]. intros a _. apply lsum_0. intros b _.
    unfold rho_lower. rewrite (rho_zero I a K b E), (rho_zero K b I a) by congruence. destruct (Nat.leb b a); ring.
Qed.
Theorem f_down : forall I i j, (I < length sp)%nat -> (i <= j < sub_dim sp I)%nat -> occ I j <= occ I i.
Proof. intros I i j HI Hij. destruct (ms_at I HI) as (m & Em & R & _ & Hm). unfold occ_of. rewrite Em. apply (occ_down solve m Hm). rewrite R. exact Hij. Qed.
Theorem f_trace : forall I, (I < length sp)%nat -> rsum (sub_dim sp I) (occ I) = rsum (sub_dim sp I) (fun a => rho sp ms I a I a).
Proof.
  intros I HI. destruct (ms_at I HI) as (m & Em & R & _ & Hm). rewrite <- R. transitivity (rsum (rows m) (fun i => nth i (rev (fst (solve m))) 0)).
  - apply rsum_ext. intros i _. unfold occ_of. rewrite Em. reflexivity.
  - rewrite (occ_trace solve m Hm). apply rsum_ext. intros a _. rewrite (rho_value I a a m Em). reflexivity.
Qed.
End Main.

(** C100 *)
Theorem natural_lower : forall solve sort os d ms info, sorts sort -> spin_orbitals os -> let sp := forget (mk_wspace os) in density_ok sp d ms -> Forall (solves solve) ms ->
  exists out occ, natorb_main solve sort (NPar (mk_wspace os) (Some (sp, d)) (Some info)) = Ok out
  /\ isometry (no_xform out)
  /\ (forall A a B b, state sp A a -> state sp B b -> sum_over (rf_ket (no_xform out)) (fun I i => value (no_xform out) A a I i * value (no_xform out) B b I i) = delta A a B b)
  /\ (forall I i K k, state sp I i -> state sp K k ->
      sum_over (mk_wspace os) (fun A a => sum_over (mk_wspace os) (fun B b => value (no_xform out) A a I i * rho_lower sp ms A a B b * value (no_xform out) B b K k)) = delta I i K k * occ I i)
  /\ (forall I i j, (I < length sp)%nat -> (i <= j < sub_dim sp I)%nat -> occ I j <= occ I i)
  /\ (forall I, (I < length sp)%nat -> rsum (sub_dim sp I) (occ I) = rsum (sub_dim sp I) (fun a => rho sp ms I a I a))
  /\ (info = true -> exists L, no_info out = Some L /\ Permutation L (occupations sp occ) /\ StronglySorted (fun a b => oi_w b <= oi_w a) L)
  /\ (info = false -> no_info out = None).
Proof.
  intros solve sort os d ms info Hsort Hspin sp Hd Hsolve. destruct (run_ok solve sort os d ms info Hsort Hspin Hd Hsolve) as (L & E & EL). fold sp in E.
  eexists _, (occ_of solve ms). split; [exact E|]. cbn [no_xform no_info]. split; [apply f_isometry with (d := d); assumption|]. split; [apply f_complete with (d := d); assumption|].
  split; [apply f_diagonal with (d := d); assumption|]. split; [apply f_down with (d := d); assumption|]. split; [apply f_trace with (d := d); assumption|]. split.
  - intros ->. exists (rev (sort L)). split; [reflexivity|]. rewrite EL. destruct (Hsort (occupations sp (occ_of solve ms))) as [P S]. fold sp. split.
    + rewrite <- Permutation_rev. symmetry. exact P.
    + clear - S. induction S as [|a l S IH F]; cbn; [constructor|]. assert (G : forall k, StronglySorted (fun x y => oi_w y <= oi_w x) k -> Forall (fun b => oi_w a <= oi_w b) k ->
        StronglySorted (fun x y : oinfo R => oi_w y <= oi_w x) (k ++ [a])).
      { intros k. induction k as [|x k IHk]; intros Sk Fk; cbn; [repeat constructor|]. inversion Sk; inversion Fk; subst. constructor; [apply IHk; assumption|].
        apply Forall_app. split; [assumption|]. constructor; [assumption|constructor]. }
      apply G; [exact IH|]. apply Forall_rev. exact F.
  - intros ->. reflexivity.
Qed.
Theorem natural_diagonal : forall solve sort os d ms info, sorts sort -> spin_orbitals os -> let sp := forget (mk_wspace os) in density_ok sp d ms -> Forall (solves solve) ms ->
  (forall A a B b, state sp A a -> state sp B b -> rho sp ms A a B b = rho sp ms B b A a) ->
  exists out occ, natorb_main solve sort (NPar (mk_wspace os) (Some (sp, d)) (Some info)) = Ok out
  /\ isometry (no_xform out)
  /\ (forall I i K k, state sp I i -> state sp K k ->
      sum_over (mk_wspace os) (fun A a => sum_over (mk_wspace os) (fun B b => value (no_xform out) A a I i * rho sp ms A a B b * value (no_xform out) B b K k)) = delta I i K k * occ I i)
  /\ (forall I i j, (I < length sp)%nat -> (i <= j < sub_dim sp I)%nat -> occ I j <= occ I i)
  /\ (forall I, (I < length sp)%nat -> rsum (sub_dim sp I) (occ I) = rsum (sub_dim sp I) (fun a => rho sp ms I a I a))
  /\ (info = true -> exists L, no_info out = Some L /\ Permutation L (occupations sp occ) /\ StronglySorted (fun a b => oi_w b <= oi_w a) L).
Proof.
  intros solve sort os d ms info Hsort Hspin sp Hd Hsolve Hsym. destruct (natural_lower solve sort os d ms info Hsort Hspin Hd Hsolve) as (out & occ & E & H1 & _ & H2 & H3 & H4 & H5 & _).
  exists out, occ. split; [exact E|]. split; [exact H1|]. split; [|auto]. intros I i K k HI HK. rewrite <- (H2 I i K k HI HK). unfold sum_over.
  apply ssum_ext. intros A a HA. apply ssum_ext. intros B b HB. unfold rho_lower. fold sp. destruct (Nat.leb b a); [reflexivity|]. rewrite (Hsym A a B b HA HB). reflexivity.
Qed.
(** C101 *)
Theorem natural_files : forall solve sort os d ms info, sorts sort -> spin_orbitals os -> let sp := forget (mk_wspace os) in density_ok sp d ms -> Forall (solves solve) ms ->
  exists out, natorb_main solve sort (NPar (mk_wspace os) (Some (sp, d)) (Some info)) = Ok out
  /\ Permutation os (no_orbitals out) /\ StronglySorted lighter (no_orbitals out)
  /\ scalar_file (no_xform out) /\ rf_bra (no_xform out) = mk_wspace os /\ rf_ket (no_xform out) = mk_wspace (no_orbitals out)
  /\ map fst (rf_ket (no_xform out)) = map fst (rf_bra (no_xform out))
  /\ (forall I, sub_dim (forget (rf_ket (no_xform out))) I = sub_dim sp I).
Proof.
  intros solve sort os d ms info Hsort Hspin sp Hd Hsolve. destruct (run_ok solve sort os d ms info Hsort Hspin Hd Hsolve) as (L & E & EL). fold sp in E.
  eexists. split; [exact E|]. cbn [no_xform no_orbitals rf_bra rf_ket]. split; [apply os'_perm; assumption|]. split; [apply Hsort|].
  split; [apply f_ok with (d := d); assumption|]. split; [reflexivity|]. split; [reflexivity|]. split; [apply perm_labels, os'_perm; assumption|].
  intros I. apply perm_dims, os'_perm. assumption.
Qed.
(** the files work together: transforming the density with radial-xform gives the occupations *)
Theorem natural_xform : forall solve sort os d ms info, sorts sort -> spin_orbitals os -> let sp := forget (mk_wspace os) in density_ok sp d ms -> Forall (solves solve) ms ->
  (forall A a B b, state sp A a -> state sp B b -> rho sp ms A a B b = rho sp ms B b A a) ->
  exists out r, natorb_main solve sort (NPar (mk_wspace os) (Some (sp, d)) (Some info)) = Ok out
  /\ radial_xform os (no_xform out) (RFile false (0, 0, 0)%Z (mk_wspace os) (mk_wspace os) (sectors_of sp sp (0, 0, 0)%Z) ms) = Ok r
  /\ rf_bra r = mk_wspace (no_orbitals out) /\ rf_ket r = mk_wspace (no_orbitals out)
  /\ (forall I i K k, state (forget (rf_bra r)) I i -> state (forget (rf_bra r)) K k -> (I, i) <> (K, k) -> value r I i K k = 0)
  /\ (forall I i j, state (forget (rf_bra r)) I j -> (i <= j)%nat -> value r I j I j <= value r I i I i).
Proof.
  intros solve sort os d ms info Hsort Hspin sp Hd Hsolve Hsym.
  destruct (natural_diagonal solve sort os d ms info Hsort Hspin Hd Hsolve Hsym) as (out & occ & E & H1 & H2 & H3 & H4 & _).
  destruct (natural_files solve sort os d ms info Hsort Hspin Hd Hsolve) as (out' & E' & P & _ & F & Bf & Kf & _ & D). assert (out' = out) by congruence. subst out'.
  set (o := RFile false (0, 0, 0)%Z (mk_wspace os) (mk_wspace os) (sectors_of sp sp (0, 0, 0)%Z) ms).
  assert (Fo : rfile_ok o). { assert (Ho : orbitals_ok (mk_wspace os)) by (exists os; auto). split; [exact Ho|]. split; [exact Ho|]. split; [reflexivity|]. apply Hd. }
  destruct (xform_files os (no_xform out) o F Fo eq_refl eq_refl Bf) as (r & Er & Fr & _ & _ & Br & Kr & Hr).
  exists out, r. split; [exact E|]. split; [exact Er|]. split; [congruence|]. split; [congruence|].
  assert (St : forall I i, state (forget (rf_bra r)) I i -> state sp I i).
  { intros I i [A B]. rewrite Br in A, B. rewrite D in B. rewrite Kf in A. rewrite (perm_length os _ P) in A. split; assumption. }
  assert (V : forall I i K k, state (forget (rf_bra r)) I i -> state (forget (rf_bra r)) K k -> value r I i K k = delta I i K k * occ I i).
  { intros I i K k HI HK. rewrite Hr; [|exact HI|unfold ket_state; rewrite Kr, <- Br; exact HK]. rewrite <- (H2 I i K k (St _ _ HI) (St _ _ HK)). reflexivity. }
  split.
  - intros I i K k HI HK Hne. rewrite V by assumption. unfold delta. destruct (Nat.eqb I K) eqn:E1, (Nat.eqb i k) eqn:E2; cbn; try ring.
    apply Nat.eqb_eq in E1. apply Nat.eqb_eq in E2. congruence.
  - intros I i j HI Hij. assert (Hi : state (forget (rf_bra r)) I i) by (destruct HI; split; [assumption|lia]). rewrite !V by assumption.
    unfold delta. rewrite !Nat.eqb_refl. cbn [andb]. rewrite !Rmult_1_l. apply H3; [apply (St _ _ HI)|]. split; [exact Hij|apply (St _ _ HI)].
Qed.
