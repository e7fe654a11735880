From Coq Require Import List ZArith Reals Bool Sorted Permutation Lia Lra.
From Verif Require Import Base BaseLemmas RMat H2Model MapModel OscModel OscSpec OscProof BlockModel BlockSpec BlockProof BlockFinal
  ObioModel ObioProof ObmModel ObmSpec ObmProof ObmFinal ObmFin2 NatModel NatSpec NatProof NatFinal NatMain.
Import ListNotations.
Open Scope R_scope.

(** * Labels in the info file *)
Lemma sorted_filter : forall A (P : A -> A -> Prop) (p : A -> bool) l, StronglySorted P l -> StronglySorted P (filter p l).
Proof.
  intros A P p l H. induction H as [|x l H IH F]; cbn; [constructor|]. destruct (p x); [|exact IH]. constructor; [exact IH|].
  rewrite Forall_forall in *. intros y Hy. apply filter_In in Hy. apply F. tauto.
Qed.
Lemma sorted_perm : forall l k, StronglySorted Z.lt l -> StronglySorted Z.lt k -> Permutation l k -> l = k.
Proof.
  induction l as [|a l IH]; intros k Hl Hk P.
  - apply Permutation_nil in P. auto.
  - destruct k as [|b k]; [symmetry in P; apply Permutation_nil in P; discriminate|].
    inversion Hl as [|? ? Hl' Fl]; inversion Hk as [|? ? Hk' Fk]; subst. rewrite Forall_forall in Fl, Fk.
    assert (E : a = b).
    { destruct (Permutation_in a P (or_introl eq_refl)) as [E|E]; [auto|]. destruct (Permutation_in b (Permutation_sym P) (or_introl eq_refl)) as [E'|E']; [auto|].
      apply Fl in E'. apply Fk in E. lia. }
    subst b. f_equal. apply IH; [assumption..|]. eapply Permutation_cons_inv. exact P.
Qed.
Lemma seq_sorted : forall a n, StronglySorted Z.lt (map Z.of_nat (seq a n)).
Proof.
  intros a n. revert a. induction n as [|n IH]; intros a; cbn; constructor; [apply IH|]. apply Forall_forall. intros x Hx. apply in_map_iff in Hx.
  destruct Hx as (y & <- & Hy). apply in_seq in Hy. lia.
Qed.
Lemma grow_order : forall sort os, sorts sort -> weights_grow os ->
  forall I i lab n, orbital_at (forget (mk_wspace (sort (orbital_info (mk_wspace os))))) I i lab n -> n = Z.of_nat i.
Proof.
  intros sort os Hs [Hn Hw] I i lab n (ns & HI & Hi). set (os' := sort (orbital_info (mk_wspace os))) in *.
  assert (P : Permutation os os') by (unfold os'; etransitivity; [symmetry; apply info_perm|apply Hs]).
  rewrite forget_mk, nth_error_map in HI. destruct (nth_error (fold_right lab_insert [] (map oi_lab os')) I) as [a|]; [|discriminate]. cbn in HI. injection HI as <- <-.
  pose proof (states_perm os os' a P) as Ps. assert (Pn : Permutation (map fst (states_of a os')) (map Z.of_nat (seq 0 (length (states_of a os'))))).
  { rewrite <- (Permutation_length Ps). etransitivity; [apply Permutation_map; symmetry; exact Ps|apply Hn]. }
  assert (E : map fst (states_of a os') = map Z.of_nat (seq 0 (length (states_of a os')))).
  { apply sorted_perm; [|apply seq_sorted|exact Pn].
    assert (ND : NoDup (map fst (states_of a os'))). { apply (Permutation_NoDup (Permutation_sym Pn)). apply FinFun.Injective_map_NoDup; [intros x y; apply Nat2Z.inj|apply seq_NoDup]. }
    unfold states_of in *. rewrite map_map in *. cbn in ND |- *.
    assert (S : StronglySorted lighter (filter (fun o => llabel_eqb (oi_lab o) a) os')) by (apply sorted_filter; unfold os'; apply Hs).
    assert (Hin : forall o, In o (filter (fun o => llabel_eqb (oi_lab o) a) os') -> In o os /\ oi_lab o = a).
    { intros o Ho. apply filter_In in Ho. destruct Ho as [Ho El]. apply llabel_eqb_ok in El. split; [eapply Permutation_in; [symmetry; exact P|exact Ho]|exact El]. }
    revert ND S Hin. generalize (filter (fun o => llabel_eqb (oi_lab o) a) os'). intros l. induction l as [|o l IH]; intros ND S Hin; cbn in *; [constructor|].
    inversion ND as [|? ? Nn ND']; inversion S as [|? ? S' F]; subst. constructor; [apply IH; [assumption..|intros; apply Hin; right; assumption]|].
    apply Forall_forall. intros z Hz. apply in_map_iff in Hz. destruct Hz as (o' & <- & Ho'). rewrite Forall_forall in F. specialize (F o' Ho'). unfold lighter in F.
    destruct (Hin o (or_introl eq_refl)) as [I1 L1]. destruct (Hin o' (or_intror Ho')) as [I2 L2].
    destruct (Z.lt_total (oi_n o) (oi_n o')) as [H|[H|H]]; [exact H| |].
    - elim Nn. apply in_map_iff. exists o'. auto.
    - specialize (Hw o' o I2 I1 ltac:(congruence) H). lra. }
  rewrite E in Hi. rewrite nth_error_map in Hi. destruct (nth_error (seq 0 (length (states_of a os'))) i) as [j|] eqn:Ej; [|discriminate]. cbn in Hi. injection Hi as <-.
  f_equal. assert (Hl : (i < length (seq 0 (length (states_of a os'))))%nat) by (apply nth_error_Some; congruence). rewrite (nth_error_nth' _ 0%nat Hl) in Ej. injection Ej as <-.
  apply seq_nth. rewrite seq_length in Hl. exact Hl.
Qed.
Lemma occupations_in : forall sp occ I i x, nth_error sp I = Some x -> (i < length (snd x))%nat -> In (OI (fst x) (Z.of_nat i) (occ I i)) (occupations sp occ).
Proof.
  intros sp occ I i x HI Hi. unfold occupations. apply in_flat_map. exists (I, x). split.
  - assert (G : forall (l : list (llabel * list Z)) a j, nth_error l j = Some x -> In ((a + j)%nat, x) (combine (seq a (length l)) l)).
    { induction l as [|y l IH]; intros a [|j] H; try discriminate; cbn in *.
      - injection H as <-. left. f_equal. lia.
      - right. replace (a + S j)%nat with (S a + j)%nat by lia. apply IH. exact H. }
    apply (G sp 0%nat I HI).
  - cbn. apply in_map_iff. exists i. split; [reflexivity|]. apply in_seq. lia.
Qed.
Theorem info_labels_ok : forall solve sort os d ms, sorts sort -> spin_orbitals os -> weights_grow os -> let sp := forget (mk_wspace os) in density_ok sp d ms -> Forall (solves solve) ms ->
  (forall A a B b, state sp A a -> state sp B b -> rho sp ms A a B b = rho sp ms B b A a) ->
  exists out L, natorb_main solve sort (NPar (mk_wspace os) (Some (sp, d)) (Some true)) = Ok out /\ no_info out = Some L
  /\ forall I i lab n, orbital_at (forget (rf_ket (no_xform out))) I i lab n ->
     In (OI lab n (sum_over (mk_wspace os) (fun A a => sum_over (mk_wspace os) (fun B b => value (no_xform out) A a I i * rho sp ms A a B b * value (no_xform out) B b I i)))) L.
Proof.
  intros solve sort os d ms Hsort Hspin Hgrow sp Hd Hsolve Hsym.
  destruct (natural_diagonal solve sort os d ms true Hsort Hspin Hd Hsolve Hsym) as (out & occ & E & _ & H2 & _ & _ & H5). destruct (H5 eq_refl) as (L & EL & PL & _). fold sp in H2, PL.
  destruct (natural_files solve sort os d ms true Hsort Hspin Hd Hsolve) as (out' & E' & P & _ & F & Bf & Kf & Lab & D). assert (out' = out) by congruence. subst out'.
  destruct (run_ok solve sort os d ms true Hsort Hspin Hd Hsolve) as (L' & E2 & _). rewrite E in E2. injection E2 as Eout.
  exists out, L. split; [exact E|]. split; [exact EL|]. intros I i lab n Hat.
  assert (Hn : n = Z.of_nat i). { apply (grow_order sort os Hsort Hgrow I i lab n). rewrite Eout in Hat. exact Hat. }
  destruct Hat as (ns & HI & Hi). assert (Hil : (i < length ns)%nat) by (apply nth_error_Some; congruence).
  assert (Hst : sub_dim sp I = length ns) by (rewrite <- D; unfold sub_dim; rewrite HI; reflexivity).
  assert (HI' : (I < length sp)%nat). { destruct (Nat.lt_ge_cases I (length sp)) as [H|H]; [exact H|]. apply nth_error_None in H. unfold sub_dim in Hst. rewrite H in Hst. lia. }
  destruct (nth_lt _ _ _ HI') as [x Hx]. assert (El : fst x = lab).
  { assert (G : nth_error (map fst sp) I = nth_error (map fst (forget (rf_ket (no_xform out)))) I). { unfold sp. rewrite !forget_labels, Lab, Bf. reflexivity. }
    rewrite !nth_error_map, Hx, HI in G. cbn in G. congruence. }
  assert (St : state sp I i) by (split; [exact HI'|rewrite Hst; exact Hil]).
  rewrite (H2 I i I i St St). unfold delta. rewrite !Nat.eqb_refl. cbn [andb]. rewrite Rmult_1_l. subst n lab.
  apply (Permutation_in _ (Permutation_sym PL)). apply occupations_in; [exact Hx|]. destruct St as [_ St]. unfold sub_dim in St. rewrite Hx in St. destruct x. exact St.
Qed.

(** * An implementation of std::sort, and solvers for the examples *)
Fixpoint ins (o : oinfo R) (l : list (oinfo R)) : list (oinfo R) :=
  match l with [] => [o] | b :: l' => if Rle_dec (oi_w o) (oi_w b) then o :: l else b :: ins o l' end.
Definition isort (l : list (oinfo R)) : list (oinfo R) := fold_right ins [] l.
Lemma ins_perm : forall o l, Permutation (o :: l) (ins o l).
Proof. intros o l. induction l as [|b l IH]; cbn; [reflexivity|]. destruct (Rle_dec _ _); [reflexivity|]. rewrite perm_swap. constructor. exact IH. Qed.
Lemma ins_sorted : forall o l, StronglySorted lighter l -> StronglySorted lighter (ins o l).
Proof.
  intros o l H. induction H as [|b l H IH F]; cbn; [repeat constructor|]. destruct (Rle_dec (oi_w o) (oi_w b)) as [Hle|Hnle].
  - constructor; [constructor; assumption|]. constructor; [exact Hle|]. eapply Forall_impl; [|exact F]. intros c Hc. unfold lighter in *. lra.
  - constructor; [exact IH|]. rewrite <- (ins_perm o l). constructor; [unfold lighter; lra|exact F].
Qed.
Lemma isort_sorts : sorts isort.
Proof.
  intros l. induction l as [|o l [P S]]; cbn; [split; constructor|]. split.
  - etransitivity; [|apply ins_perm]. constructor. exact P.
  - apply ins_sorted. exact S.
Qed.
(** a solver that is right for 2x2 matrices with equal diagonal elements and for diagonal ones in ascending order *)
Definition solve2 (m : mat R) : list R * mat R :=
  if Req_EM_T (at_ m 1 0) 0 then ([at_ m 0 0; at_ m 1 1], Mat 2 2 (fun i j => if Nat.eqb i j then 1 else 0))
  else ([at_ m 0 0 - at_ m 1 0; at_ m 0 0 + at_ m 1 0], Mat 2 2 (fun i j => if Nat.eqb i 1 && Nat.eqb j 0 then - / sqrt 2 else / sqrt 2)).
Lemma sqrt2_inv : / sqrt 2 * / sqrt 2 = / 2.
Proof. rewrite <- Rinv_mult. rewrite sqrt_sqrt by lra. reflexivity. Qed.
Lemma solve2_diag : forall a b, a <= b -> solves solve2 (Mat 2 2 (fun i j => if Nat.eqb i j then (if Nat.eqb i 0 then a else b) else 0)).
Proof.
  intros a b Hab. unfold solves, solve2. cbn [at_ rows Nat.eqb]. destruct (Req_EM_T 0 0) as [_|C]; [|lra]. cbn [fst snd length rows cols].
  split; [reflexivity|]. split; [reflexivity|]. split; [reflexivity|]. split; [constructor; [repeat constructor|constructor; [exact Hab|constructor]]|].
  split; [|split]; intros [|[|i]] [|[|j]] Hi Hj; try lia; unfold rsum, mirrored; cbn; ring.
Qed.
Lemma solve2_equal : forall c x, 0 < x -> solves solve2 (Mat 2 2 (fun i j => if Nat.eqb i j then c else x)).
Proof.
  intros c x Hx. unfold solves, solve2. cbn [at_ rows Nat.eqb]. destruct (Req_EM_T x 0) as [C|_]; [lra|]. cbn [fst snd length rows cols].
  split; [reflexivity|]. split; [reflexivity|]. split; [reflexivity|]. split; [constructor; [repeat constructor|constructor; [lra|constructor]]|]. pose proof sqrt2_inv as E.
  split; [|split]; intros [|[|i]] [|[|j]] Hi Hj; try lia; unfold rsum, mirrored; cbn; try (rewrite ?Ropp_mult_distr_l_reverse, ?Ropp_mult_distr_r_reverse, ?E; lra); nra.
Qed.

(** * Two s1/2 proton orbitals *)
Definition s_p : llabel := LL SP 0 1.
Definition p_p : llabel := LL SP 1 1.
Definition two_s (w0 w1 : R) : list (oinfo R) := [OI s_p 0 w0; OI s_p 1 w1].
Definition one_block (m : mat R) : density := Dens 0 0 [[(0, 0)%nat]] [[m]].
Lemma two_s_space : forall w0 w1, mk_wspace (two_s w0 w1) = [(s_p, [(0%Z, w0); (1%Z, w1)])].
Proof. reflexivity. Qed.
Lemma s_spin : spin_half s_p.
Proof. unfold spin_half. cbn. lia. Qed.
Lemma p_spin : spin_half p_p.
Proof. unfold spin_half. cbn. lia. Qed.
Lemma two_s_spin : forall w0 w1, spin_orbitals (two_s w0 w1).
Proof. intros. repeat constructor; apply s_spin. Qed.
Lemma two_s_density : forall w0 w1 f, density_ok (forget (mk_wspace (two_s w0 w1))) (one_block (Mat 2 2 f)) [Mat 2 2 f].
Proof.
  intros. split; [cbn; lia|]. split; [reflexivity|]. split; [reflexivity|]. split; [repeat constructor; cbn; tauto|]. repeat constructor; cbn; lia.
Qed.
Definition sym2 (c x : R) : mat R := Mat 2 2 (fun i j => if Nat.eqb i j then c else x).
Definition diag2 (a b : R) : mat R := Mat 2 2 (fun i j => if Nat.eqb i j then (if Nat.eqb i 0 then a else b) else 0).
Lemma two_s_symmetric : forall w0 w1 m, at_ m 0 1 = at_ m 1 0 -> let sp := forget (mk_wspace (two_s w0 w1)) in
  forall A a B b, state sp A a -> state sp B b -> rho sp [m] A a B b = rho sp [m] B b A a.
Proof.
  intros w0 w1 m H sp A a B b [HA Ha] [HB Hb]. cbn in HA, HB. assert (A = 0%nat) by lia. assert (B = 0%nat) by lia. subst A B. cbn in Ha, Hb.
  destruct a as [|[|a]], b as [|[|b]]; try lia; cbn; congruence.
Qed.
Ltac decide_le := repeat match goal with |- context [Rle_dec ?a ?b] => destruct (Rle_dec a b); [|try lra] end; try lra.
Theorem natural_case : let os := two_s 0 2 in let m := sym2 1 (1 / 2) in
  sorts isort /\ spin_orbitals os /\ weights_grow os /\ density_ok (forget (mk_wspace os)) (one_block m) [m] /\ Forall (solves solve2) [m]
  /\ exists out, natorb_main solve2 isort (NPar (mk_wspace os) (Some (forget (mk_wspace os), one_block m)) (Some true)) = Ok out
     /\ no_orbitals out = os /\ no_info out = Some [OI s_p 0 (3 / 2); OI s_p 1 (1 / 2)] /\ value (no_xform out) 0 0 0 0 = / sqrt 2 /\ value (no_xform out) 0 1 0 1 = - / sqrt 2.
Proof.
  intros os m. split; [apply isort_sorts|]. split; [apply two_s_spin|]. split.
  { split.
    - intros a. unfold states_of, os, two_s. cbn [filter oi_lab]. destruct (llabel_eqb s_p a); cbn; [|constructor]. repeat constructor.
    - unfold os, two_s. cbn. intros o o' [<-|[<-|[]]] [<-|[<-|[]]] _ H; cbn in *; try lia; lra. }
  split; [apply two_s_density|]. split; [constructor; [apply solve2_equal; lra|constructor]|].
  assert (Ei : isort (orbital_info (mk_wspace os)) = os). { unfold os, two_s, isort. cbn. destruct (Rle_dec 0 2); [reflexivity|lra]. }
  assert (Es : solve2 m = ([1 - 1 / 2; 1 + 1 / 2], Mat 2 2 (fun i j => if Nat.eqb i 1 && Nat.eqb j 0 then - / sqrt 2 else / sqrt 2))).
  { unfold solve2, m, sym2. cbn [at_ Nat.eqb]. destruct (Req_EM_T (1 / 2) 0); [lra|reflexivity]. }
  unfold natorb_main. cbn [np_dens np_space np_out get bind]. rewrite Ei. cbn. unfold diagonalise. cbn. rewrite Es. cbn.
  eexists. split; [reflexivity|]. cbn [no_orbitals no_info no_xform]. split; [reflexivity|]. split; [|split; reflexivity].
  unfold isort. cbn. destruct (Rle_dec (1 + 1 / 2) (1 - 1 / 2)); [lra|]. cbn. replace (1 + 1 / 2) with (3 / 2) by lra. replace (1 - 1 / 2) with (1 / 2) by lra. reflexivity.
Qed.
(** weights that fall with n: the most occupied natural orbital is written as orbital n = 1 of the transformation file and
    listed as n = 0 in the info file *)
Theorem info_refuted : exists solve sort os d ms out L, sorts sort /\ spin_orbitals os /\ density_ok (forget (mk_wspace os)) d ms /\ Forall (solves solve) ms
  /\ (forall A a B b, state (forget (mk_wspace os)) A a -> state (forget (mk_wspace os)) B b -> rho (forget (mk_wspace os)) ms A a B b = rho (forget (mk_wspace os)) ms B b A a)
  /\ natorb_main solve sort (NPar (mk_wspace os) (Some (forget (mk_wspace os), d)) (Some true)) = Ok out /\ no_info out = Some L
  /\ exists I i lab n, orbital_at (forget (rf_ket (no_xform out))) I i lab n
     /\ ~ In (OI lab n (sum_over (mk_wspace os) (fun A a => sum_over (mk_wspace os) (fun B b => value (no_xform out) A a I i * rho (forget (mk_wspace os)) ms A a B b * value (no_xform out) B b I i)))) L.
Proof.
  set (os := two_s 2 1). set (m := diag2 1 2).
  assert (Ei : isort (orbital_info (mk_wspace os)) = [OI s_p 1 1; OI s_p 0 2]). { unfold os, two_s, isort. cbn. destruct (Rle_dec 2 1); [lra|reflexivity]. }
  assert (Es : solve2 m = ([1; 2], Mat 2 2 (fun i j => if Nat.eqb i j then 1 else 0))).
  { unfold solve2, m, diag2. cbn [at_ Nat.eqb]. destruct (Req_EM_T 0 0); [reflexivity|lra]. }
  eexists solve2, isort, os, (one_block m), [m], _, _. split; [apply isort_sorts|]. split; [apply two_s_spin|]. split; [apply two_s_density|].
  split; [constructor; [apply solve2_diag; lra|constructor]|]. split; [apply two_s_symmetric; reflexivity|].
  unfold natorb_main. cbn [np_dens np_space np_out get bind]. rewrite Ei. cbn [multipole_index bind]. cbn. unfold diagonalise. cbn. rewrite Es. cbn.
  split; [reflexivity|]. cbn [no_info no_xform]. split; [reflexivity|]. exists 0%nat, 0%nat, s_p, 1%Z. split.
  - exists [1%Z; 0%Z]. split; reflexivity.
  - unfold isort. cbn. destruct (Rle_dec 2 1); [lra|]. cbn. unfold sum_over, ssum, rsum. cbn. intros [H|[H|[]]]; [congruence|].
    injection H as H. unfold rho in H. cbn in H. lra.
Qed.

(** * The control file *)
Definition other (c : ncmd) : Prop := c = COther.
Theorem no_density : forall solve sort cs, (forall c, In c cs -> c <> CBad /\ forall rd, c <> CDensities rd) -> natorb_gen solve sort cs = UB.
Proof.
  intros solve sort cs H. unfold natorb_gen. assert (G : forall cs p, (forall c, In c cs -> c <> CBad /\ forall rd, c <> CDensities rd) -> np_dens p = None ->
    exists p', read_parameters cs p = Ok p' /\ np_dens p' = None).
  { clear. induction cs as [|c cs IH]; intros p H Hp; cbn; [eauto|]. destruct (H c (or_introl eq_refl)) as [H1 H2].
    assert (H' : forall c, In c cs -> c <> CBad /\ forall rd, c <> CDensities rd) by (intros; apply H; right; assumption).
    destruct c; try (apply IH; assumption); congruence. }
  destruct (G cs np0 H eq_refl) as (p' & E & Hp). rewrite E. cbn [bind]. unfold natorb_main. rewrite Hp. reflexivity.
Qed.
Theorem no_output : forall solve sort cs out, (forall info, ~ In (COutput info) cs) -> natorb_gen solve sort cs <> Ok out.
Proof.
  intros solve sort cs out H E. unfold natorb_gen in E. assert (G : forall cs p p', (forall info, ~ In (COutput info) cs) -> np_out p = None -> read_parameters cs p = Ok p' -> np_out p' = None).
  { clear. induction cs as [|c cs IH]; intros p p' H Hp E; cbn in E; [congruence|].
    assert (H' : forall info, ~ In (COutput info) cs) by (intros info Hin; apply (H info); right; exact Hin).
    destruct c as [info|orbs|rd| |]; [elim (H info); left; reflexivity|apply (IH _ _ H') in E; [exact E|exact Hp]| |apply (IH _ _ H') in E; [exact E|exact Hp]|discriminate].
    destruct (rd (forget (np_space p))) as [d| | |]; try discriminate. cbn in E. apply (IH _ _ H') in E; [exact E|exact Hp]. }
  destruct (read_parameters cs np0) as [p'| | |] eqn:Ep; try discriminate. cbn [bind] in E. pose proof (G cs np0 p' H eq_refl Ep) as Hp. unfold natorb_main in E.
  destruct (np_dens p') as [[dsp d]|]; [|discriminate]. cbn [get bind] in E. destruct (multipole_index d 0) as [q| | |]; try discriminate. cbn [bind] in E.
  destruct (nth_error (de_sectors d) q) as [s|]; [|discriminate]. destruct (nth_error (de_blocks d) q) as [ms|]; [|discriminate]. cbn [get bind] in E.
  destruct (natural_blocks solve dsp s ms) as [[us occ]| | |]; try discriminate. cbn [bind] in E. rewrite Hp in E. discriminate.
Qed.
Theorem other_ignored : forall solve sort cs cs', natorb_gen solve sort (cs ++ COther :: cs') = natorb_gen solve sort (cs ++ cs').
Proof.
  intros. unfold natorb_gen. assert (G : forall cs p, read_parameters (cs ++ COther :: cs') p = read_parameters (cs ++ cs') p); [|rewrite G; reflexivity].
  clear cs. induction cs as [|c cs IH]; intros p; cbn; [reflexivity|]. destruct c; cbn; try apply IH; [|reflexivity]. destruct (read (forget (np_space p))); cbn; [apply IH|reflexivity..].
Qed.
Theorem in_order : forall solve sort os rd info, natorb_gen solve sort [CIndexing os; CDensities rd; COutput info]
  = (d <- rd (forget (mk_wspace os)) ;; natorb_main solve sort (NPar (mk_wspace os) (Some (forget (mk_wspace os), d)) (Some info)))%outcome
  /\ natorb_gen solve sort [COutput info; CIndexing os; CDensities rd] = natorb_gen solve sort [CIndexing os; CDensities rd; COutput info].
Proof. intros. unfold natorb_gen. cbn [read_parameters np0 np_space np_dens np_out]. destruct (rd (forget (mk_wspace os))); split; reflexivity. Qed.
(** the orbitals given after the densities: the info file lists orbitals that are not in the orbital file *)
Theorem late_indexing_refuted : exists solve sort cs out L o, sorts sort /\ natorb_gen solve sort cs = Ok out /\ no_info out = Some L
  /\ In o L /\ ~ In (oi_lab o) (map oi_lab (no_orbitals out)).
Proof.
  set (m := Mat 1 1 (fun _ _ : nat => 1)). set (solve := fun _ : mat R => ([1], m)).
  eexists solve, isort, [CIndexing [OI s_p 0 0]; CDensities (fun _ => Ok (one_block m)); CIndexing [OI p_p 0 1]; COutput true], _, _, _.
  split; [apply isort_sorts|]. split; [reflexivity|]. split; [reflexivity|]. split; [left; reflexivity|]. cbn. intros [H|[]]. discriminate.
Qed.

(** * The tests of radial-compose *)
Definition one_orb (lab : llabel) : wspace R := [(lab, [(0%Z, 0)])].
Definition sp_orb : wspace R := [(s_p, [(0%Z, 0)]); (p_p, [(0%Z, 1)])].
Lemma one_orb_ok : forall lab, spin_half lab -> orbitals_ok (one_orb lab).
Proof.
  intros lab H. exists [OI lab 0 0]. split; [constructor; [exact H|constructor]|]. unfold mk_wspace. cbn. unfold states_of. cbn.
  rewrite (proj2 (llabel_eqb_ok lab lab) eq_refl). reflexivity.
Qed.
Lemma sp_orb_ok : orbitals_ok sp_orb.
Proof. exists [OI s_p 0 0; OI p_p 0 1]. split; [constructor; [apply s_spin|constructor; [apply p_spin|constructor]]|reflexivity]. Qed.
Definition one_by_one (x : R) : mat R := Mat 1 1 (fun _ _ => x).
(** a file of type spherical *)
Definition s_file (radial : bool) (x : R) : rfile := RFile radial (0, 0, 0)%Z (one_orb s_p) (one_orb s_p) [(0, 0)%nat] [one_by_one x].
Lemma s_file_ok : forall radial x, rfile_ok (s_file radial x).
Proof.
  intros. split; [apply one_orb_ok, s_spin|]. split; [apply one_orb_ok, s_spin|]. split; [reflexivity|]. split; [repeat constructor; cbn; tauto|]. repeat constructor; cbn; lia.
Qed.
Theorem compose_type_refuted : exists f1 f2 f, rfile_ok f1 /\ rfile_ok f2 /\ rf_radial f2 = false /\ radial_compose f1 f2 = Ok f.
Proof.
  exists (s_file true 1), (s_file false 2). eexists. split; [apply s_file_ok|]. split; [apply s_file_ok|]. split; [reflexivity|].
  unfold radial_compose. rewrite (proj2 (same_orbitals_ok _ _)) by reflexivity. reflexivity.
Qed.
(** the radial part of r between s1/2 and p1/2, and the unit overlaps *)
Definition r_file : rfile := RFile true (1, 1, 0)%Z sp_orb sp_orb [(0, 1)%nat; (1, 0)%nat] [one_by_one 3; one_by_one 3].
Definition unit_file : rfile := RFile true (0, 0, 0)%Z sp_orb sp_orb [(0, 0)%nat; (1, 1)%nat] [one_by_one 1; one_by_one 1].
Lemma r_file_ok : rfile_ok r_file.
Proof. split; [apply sp_orb_ok|]. split; [apply sp_orb_ok|]. split; [reflexivity|]. split; [repeat constructor; cbn; intuition congruence|]. repeat constructor; cbn; lia. Qed.
Lemma unit_file_ok : scalar_file unit_file.
Proof.
  split; [|split; reflexivity]. split; [apply sp_orb_ok|]. split; [apply sp_orb_ok|]. split; [reflexivity|]. split; [repeat constructor; cbn; intuition congruence|]. repeat constructor; cbn; lia.
Qed.
Lemma unit_isometry : isometry unit_file.
Proof.
  intros I i K k [HI Hi] [HK Hk]. cbn in HI, HK. destruct I as [|[|I]]; [| |lia]; cbn in Hi; assert (i = 0%nat) by lia; subst i; (destruct K as [|[|K]]; [| |lia]);
    cbn in Hk; assert (k = 0%nat) by lia; subst k; unfold sum_over, ssum, rsum, delta; cbn; ring.
Qed.
Theorem compose_rank_refuted : exists f1 f2 f, rfile_ok f1 /\ scalar_file f2 /\ isometry f2 /\ rf_radial f1 = true /\ radial_compose f1 f2 = Ok f
  /\ exists I i K k, bra_state f I i /\ ket_state f K k /\ value f I i K k <> sum_over (rf_ket f1) (fun J j => value f1 I i J j * value f2 J j K k).
Proof.
  exists r_file, unit_file. eexists. split; [apply r_file_ok|]. split; [apply unit_file_ok|]. split; [apply unit_isometry|]. split; [reflexivity|]. split.
  - unfold radial_compose. rewrite (proj2 (same_orbitals_ok _ _)) by reflexivity. reflexivity.
  - exists 0%nat, 0%nat, 1%nat, 0%nat. split; [split; cbn; lia|]. split; [split; cbn; lia|]. unfold value, sum_over, ssum, rsum. cbn. lra.
Qed.
(** a case of the composition and of the change of basis: two orbitals s1/2 and p1/2, overlaps 2 and 5 *)
Definition ov_file (a b : R) : rfile := RFile true (0, 0, 0)%Z sp_orb sp_orb [(0, 0)%nat; (1, 1)%nat] [one_by_one a; one_by_one b].
Lemma ov_file_ok : forall a b, scalar_file (ov_file a b).
Proof.
  intros. split; [|split; reflexivity]. split; [apply sp_orb_ok|]. split; [apply sp_orb_ok|]. split; [reflexivity|]. split; [repeat constructor; cbn; intuition congruence|]. repeat constructor; cbn; lia.
Qed.
Theorem compose_case : exists f, scalar_file (ov_file 2 5) /\ scalar_file (ov_file 3 4) /\ radial_compose (ov_file 2 5) (ov_file 3 4) = Ok f /\ value f 0 0 0 0 = 6 /\ value f 1 0 1 0 = 20.
Proof.
  eexists. split; [apply ov_file_ok|]. split; [apply ov_file_ok|]. split.
  - unfold radial_compose. rewrite (proj2 (same_orbitals_ok _ _)) by reflexivity. reflexivity.
  - unfold value. cbn. unfold rsum. cbn. split; ring.
Qed.
Theorem xform_case : exists r, scalar_file (ov_file 2 5) /\ rfile_ok r_file
  /\ radial_xform [OI s_p 0 0; OI p_p 0 1] (ov_file 2 5) r_file = Ok r /\ rf_q r = (1, 1, 0)%Z /\ value r 0 0 1 0 = 30 /\ value r 0 0 0 0 = 0.
Proof.
  eexists. split; [apply ov_file_ok|]. split; [apply r_file_ok|]. split.
  - unfold radial_xform. cbn [rf_q ov_file r_file]. rewrite !(proj2 (same_orbitals_ok _ _)) by reflexivity. reflexivity.
  - split; [reflexivity|]. unfold value. cbn. unfold rsum. cbn. split; ring.
Qed.
Theorem undefined_refuted : exists solve sort cs, natorb_gen solve sort cs = UB.
Proof. exists solve2, isort, [CIndexing (two_s 0 2); COutput true; COther]. apply no_density. intros c [<-|[<-|[<-|[]]]]; split; congruence. Qed.
Theorem bad_line : forall solve sort cs cs',
  (forall out, natorb_gen solve sort (cs ++ CBad :: cs') <> Ok out)
  /\ ((forall c rd, In c cs -> c <> CDensities rd) -> natorb_gen solve sort (cs ++ CBad :: cs') = Exit).
Proof.
  intros solve sort cs cs'. unfold natorb_gen. generalize np0. induction cs as [|c cs IH]; intros p; cbn [app read_parameters]; [split; [discriminate|reflexivity]|].
  assert (A : (forall c0 rd, In c0 (c :: cs) -> c0 <> CDensities rd) -> forall c0 rd, In c0 cs -> c0 <> CDensities rd) by (intros H c0 rd E; apply H; right; exact E).
  destruct c as [info|os|rd| |].
  - destruct (IH (NPar (np_space p) (np_dens p) (Some info))) as [H1 H2]. split; [exact H1|intros H; apply H2, A, H].
  - destruct (IH (NPar (mk_wspace os) (np_dens p) (np_out p))) as [H1 H2]. split; [exact H1|intros H; apply H2, A, H].
  - split; [|intros H; exfalso; exact (H (CDensities rd) rd (or_introl eq_refl) eq_refl)].
    destruct (rd (forget (np_space p))) as [d| | |]; cbn [bind]; try discriminate. apply (IH (NPar (np_space p) (Some (forget (np_space p), d)) (np_out p))).
  - destruct (IH p) as [H1 H2]. split; [exact H1|intros H; apply H2, A, H].
  - split; [discriminate|reflexivity].
Qed.
