(** Proofs for C49, C50. *)
From Coq Require Import String List ZArith Reals Lra Lia Bool Permutation.
From Verif Require Import Base BaseLemmas RMat OscModel OscFinal BlockModel BlockProof JpvModel JpvSpec JpvProof MixModel MixProof RelxModel RelxSpec.
Import ListNotations.
Open Scope R_scope.

(** * C49 *)
Lemma F2n : forall A B (P : A -> B -> Prop) l l' i x y, Forall2 P l l' -> nth_error l i = Some x -> nth_error l' i = Some y -> P x y.
Proof. intros A B P l l' i x y H Hx Hy. destruct (Forall2_nth P l l' i x H Hx) as (y' & Hy' & Hp). rewrite Hy in Hy'. injection Hy' as <-. exact Hp. Qed.
Lemma cond_loop : forall (skip : nat -> nat -> bool) source nb nk l m, NoDup l -> rows source = nb -> cols source = nk ->
  (forall i j, In (i, j) l -> (i < nb)%nat /\ (j < nk)%nat) -> rows m = nb -> cols m = nk ->
  exists r, loop2 l (fun i j m => if skip i j then Ok m else v <- mat_get source i j ;; mat_put m i j v) m = Ok r
  /\ rows r = nb /\ cols r = nk
  /\ forall i j, at_ r i j = if in_dec (fun x y : nat * nat => ltac:(decide equality; apply Nat.eq_dec)) (i, j) l then (if skip i j then at_ m i j else at_ source i j) else at_ m i j.
Proof.
  intros skip source nb nk l. induction l as [|[a b] l IH]; intros m Hn Hr Hc Hin Hm Hm'.
  - exists m. split; [reflexivity|]. split; [exact Hm|]. split; [exact Hm'|]. intros i j. destruct (in_dec _ _ _) as [[]|]. reflexivity.
  - inversion Hn as [|? ? Hni Hn']; subst. destruct (Hin a b (or_introl eq_refl)) as [La Lb].
    assert (Hin' : forall i j, In (i, j) l -> (i < rows source)%nat /\ (j < cols source)%nat) by (intros; apply Hin; right; assumption).
    cbn [loop2]. destruct (skip a b) eqn:Es.
    + cbn [bind]. destruct (IH m Hn' eq_refl eq_refl Hin' Hm Hm') as (r & Er & R1 & R2 & R3). exists r. split; [exact Er|]. split; [exact R1|]. split; [exact R2|].
      intros i j. rewrite R3. destruct (in_dec _ (i, j) l) as [I1|I1], (in_dec _ (i, j) ((a, b) :: l)) as [I2|I2]; cbn [In] in I2; try tauto.
      destruct I2 as [E|I2]; [|tauto]. injection E as <- <-. rewrite Es. reflexivity.
    + unfold mat_get. rewrite (proj2 (Nat.ltb_lt a _) La), (proj2 (Nat.ltb_lt b _) Lb). cbn [andb cassert bind].
      unfold mat_put at 1. rewrite Hm, Hm', (proj2 (Nat.ltb_lt a _) La), (proj2 (Nat.ltb_lt b _) Lb). cbn [andb cassert bind].
      destruct (IH (mset m a b (at_ source a b)) Hn' eq_refl eq_refl Hin' Hm Hm') as (r & Er & R1 & R2 & R3). exists r. split; [exact Er|]. split; [exact R1|]. split; [exact R2|].
      intros i j. rewrite R3. unfold mset; cbn [at_].
      destruct (in_dec _ (i, j) l) as [I1|I1], (in_dec _ (i, j) ((a, b) :: l)) as [I2|I2]; cbn [In] in I2; try tauto.
      * destruct (skip i j) eqn:Eij; [|reflexivity]. destruct (Nat.eqb_spec i a); [|reflexivity]. destruct (Nat.eqb_spec j b); [|reflexivity]. subst. congruence.
      * destruct I2 as [E|I2]; [|tauto]. injection E as <- <-. rewrite Es, !Nat.eqb_refl. reflexivity.
      * destruct (Nat.eqb_spec i a); [|reflexivity]. destruct (Nat.eqb_spec j b); [|reflexivity]. subst. tauto.
Qed.
Lemma filter_block_ok : forall sp x source, rows source = rdim sp (fst x) -> cols source = rdim sp (snd x) ->
  exists r, filter_block sp x source = Ok r /\ rows r = rdim sp (fst x) /\ cols r = rdim sp (snd x)
  /\ forall i j, (i < rows r)%nat -> (j < cols r)%nat ->
     (kept_triangle x i j -> at_ r i j = at_ source i j) /\ (~ kept_triangle x i j -> at_ r i j = 0).
Proof.
  intros sp x source Hr Hc. unfold filter_block.
  destruct (cond_loop (fun i j => Nat.eqb (fst x) (snd x) && negb (Nat.leb i j)) source (rdim sp (fst x)) (rdim sp (snd x))
    (pairs (rdim sp (fst x)) (rdim sp (snd x))) (mzero 0 (rdim sp (fst x)) (rdim sp (snd x)))) as (r & Er & R1 & R2 & R3); auto.
  { apply NoDup_pairs. } { intros i j H. apply in_pairs in H. exact H. }
  exists r. split; [exact Er|]. split; [exact R1|]. split; [exact R2|]. intros i j Hi Hj. rewrite R3.
  destruct (in_dec _ _ _) as [_|N]; [|elim N; apply in_pairs; lia]. unfold kept_triangle. cbn [mzero at_].
  destruct (Nat.eqb_spec (fst x) (snd x)) as [E|E], (Nat.leb_spec i j) as [L|L]; cbn [andb negb]; split; intros H; try reflexivity; try lia; exfalso; apply H; intros; lia.
Qed.
Lemma filter_copies : forall p sp s source, rblocks_ok sp s source ->
  exists r, filter_component p sp s source = Ok r /\ rblocks_ok sp s r
  /\ forall q x m m' i j, nth_error s q = Some x -> nth_error source q = Some m -> nth_error r q = Some m' ->
     (i < rdim sp (fst x))%nat -> (j < rdim sp (snd x))%nat ->
     (kept_triangle x i j -> at_ m' i j = at_ m i j) /\ (~ kept_triangle x i j -> at_ m' i j = 0).
Proof.
  intros p sp s source Hok. unfold filter_component.
  assert (L := Forall2_len _ _ _ Hok).
  match goal with |- exists r, map_blocks ?f ?l = _ /\ _ => destruct (map_blocks_ok _ _ f l) as (r & Er & Lr & Nr) end.
  { intros q Hq. apply in_seq in Hq. destruct (nth_error s q) as [x|] eqn:Ex; [|apply nth_error_None in Ex; lia].
    destruct (nth_error source q) as [m|] eqn:Em; [|apply nth_error_None in Em; unfold lsectors, blocks in *; lia]. cbn [get bind].
    destruct (F2n _ _ _ _ _ q x m Hok Ex Em) as [D1 D2]. destruct (filter_block_ok sp x m D1 D2) as (b & Eb & _). exists b. exact Eb. }
  rewrite seq_length in Lr.
  assert (Val : forall q x m m', nth_error s q = Some x -> nth_error source q = Some m -> nth_error r q = Some m' -> filter_block sp x m = Ok m').
  { intros q x m m' Hx Hm Hm'. assert (Hq : (q < length s)%nat) by (apply nth_error_Some; unfold lsectors in *; congruence).
    destruct (Nr q q) as (b & Hb & Eb).
    { rewrite nth_error_nth' with (d := 0%nat) by (rewrite seq_length; exact Hq). rewrite seq_nth by exact Hq. reflexivity. }
    rewrite Hm' in Hb. injection Hb as <-. unfold lsectors, blocks in *. rewrite Hx, Hm in Eb. exact Eb. }
  exists r. split; [exact Er|]. split.
  - apply Forall2_intro; [unfold lsectors, blocks in *; congruence|]. intros q x m' Hx Hm'.
    destruct (nth_error source q) as [m|] eqn:Em.
    2: { apply nth_error_None in Em. assert (q < length s)%nat by (apply nth_error_Some; unfold lsectors in *; congruence). unfold lsectors, blocks in *; lia. }
    destruct (F2n _ _ _ _ _ q x m Hok Hx Em) as [D1 D2]. destruct (filter_block_ok sp x m D1 D2) as (b & Eb & B1 & B2 & _).
    rewrite (Val q x m m' Hx Em Hm') in Eb. injection Eb as <-. split; assumption.
  - intros q x m m' i j Hx Hm Hm' Hi Hj. destruct (F2n _ _ _ _ _ q x m Hok Hx Hm) as [D1 D2].
    destruct (filter_block_ok sp x m D1 D2) as (b & Eb & B1 & B2 & B3). rewrite (Val q x m m' Hx Hm Hm') in Eb. injection Eb as <-.
    apply B3; lia.
Qed.
Lemma filter_not_applied : exists lines p sp s source r f q x m' i j,
  read_fparams lines = Ok p /\ nth_error lines 1 = Some ["Nrelmax"; "2"]%string /\ f = FNrelmax 2
  /\ rblocks_ok sp s source /\ filter_component p sp s source = Ok r /\ nth_error s q = Some x /\ nth_error r q = Some m'
  /\ (i < rdim sp (fst x))%nat /\ (j < rdim sp (snd x))%nat /\ ~ accepts f (quanta sp (fst x) i) (quanta sp (snd x) j) /\ at_ m' i j <> 0.
Proof.
  set (sp := [RSub 0 0 0 1 0 3]).
  set (src := [Mat 3 3 (fun _ _ => 1)]).
  assert (Hok : rblocks_ok sp [(0, 0)]%nat src) by (repeat constructor).
  destruct (filter_copies (FParams "a" "b" None None) sp [(0, 0)]%nat src Hok) as (r & Er & Or & Vr).
  destruct r as [|m' [|? ?]]; [inversion Or| |inversion Or as [|? ? ? ? ? O2]; inversion O2].
  exists [["a"; "b"]; ["Nrelmax"; "2"]]%string, (FParams "a" "b" None None), sp, [(0, 0)]%nat, src, [m'], (FNrelmax 2), 0%nat, (0, 0)%nat, m', 2%nat, 2%nat.
  split; [reflexivity|]. split; [reflexivity|]. split; [reflexivity|]. split; [exact Hok|]. split; [exact Er|]. split; [reflexivity|]. split; [reflexivity|].
  split; [cbn; lia|]. split; [cbn; lia|]. split; [cbn; lia|].
  destruct (Vr 0%nat (0, 0)%nat _ m' 2%nat 2%nat eq_refl eq_refl eq_refl) as [V _]; [cbn; lia|cbn; lia|].
  rewrite V by (intros _; lia). cbn. lra.
Qed.

(** * C50 *)
Lemma find_sub_inv : forall sp x i, find_sub sp (r_L x) (r_S x) (r_J x) (r_T x) (r_g x) = Some i ->
  exists y, nth_error sp i = Some y /\ labels_of y = labels_of x.
Proof.
  intros sp x i H. unfold find_sub in H. apply find_ix_some in H. destruct H as (y & Hy & E). exists y. split; [exact Hy|].
  unfold has_labels in E. rewrite !andb_true_iff, !Z.eqb_eq in E. destruct E as [[[[E1 E2] E3] E4] E5]. unfold labels_of. congruence.
Qed.
Lemma find_sub_no : forall sp x, find_sub sp (r_L x) (r_S x) (r_J x) (r_T x) (r_g x) = None -> forall i y, nth_error sp i = Some y -> labels_of y <> labels_of x.
Proof.
  intros sp x H i y Hy E. unfold find_sub in H. pose proof (find_ix_none _ _ _ H y (nth_error_In _ _ Hy)) as F.
  unfold labels_of in E. injection E as E1 E2 E3 E4 E5. unfold has_labels in F. rewrite E1, E2, E3, E4, E5, !Z.eqb_refl in F. discriminate.
Qed.

Section Component.
Variable overlap : Z -> R -> nat -> nat -> option R.
Variable schedule : nat -> nat -> list (nat * nat).
Variable b_ratio : R.
Variable O : Z -> nat -> nat -> R.
Hypothesis HO : forall sd td L, exists m, xform_matrix overlap schedule sd td L b_ratio = Ok m /\ rows m = sd /\ cols m = td
  /\ forall i j, (i < sd)%nat -> (j < td)%nat -> at_ m i j = O L i j.
Variables src tgt : rspace.
Hypothesis Hsrc : rspace_ok src.
Hypothesis Htgt : rspace_ok tgt.

Lemma entries_ok : exists xm, map_blocks (xform_entry overlap schedule src b_ratio) tgt = Ok xm
  /\ forall t y, nth_error tgt t = Some y -> exists e, nth_error xm t = Some e
  /\ match fst e with
     | None => forall i, ~ same_labels src tgt i t
     | Some i => same_labels src tgt i t /\ rows (snd e) = rdim src i /\ cols (snd e) = r_dim y
         /\ forall a b, (a < rdim src i)%nat -> (b < r_dim y)%nat -> at_ (snd e) a b = O (r_L y) a b
     end.
Proof.
  assert (Step : forall y, exists e, xform_entry overlap schedule src b_ratio y = Ok e /\ forall t, nth_error tgt t = Some y ->
     match fst e with
     | None => forall i, ~ same_labels src tgt i t
     | Some i => same_labels src tgt i t /\ rows (snd e) = rdim src i /\ cols (snd e) = r_dim y
         /\ forall a b, (a < rdim src i)%nat -> (b < r_dim y)%nat -> at_ (snd e) a b = O (r_L y) a b
     end).
  { intros y. unfold xform_entry. destruct (find_sub src (r_L y) (r_S y) (r_J y) (r_T y) (r_g y)) as [i|] eqn:Ef.
    - destruct (find_sub_inv _ _ _ Ef) as (s & Hs & El). rewrite Hs. cbn [get bind].
      destruct (HO (r_dim s) (r_dim y) (r_L y)) as (m & Em & R1 & R2 & R3). rewrite Em. cbn [bind]. eexists. split; [reflexivity|].
      intros t Ht. cbn [fst snd]. assert (Ed : rdim src i = r_dim s) by (unfold rdim; rewrite Hs; reflexivity). rewrite Ed.
      split; [exists s, y; auto|]. auto.
    - eexists. split; [reflexivity|]. intros t Ht. cbn [fst]. intros i (s & y' & Hs & Hy' & El). rewrite Ht in Hy'. injection Hy' as <-.
      exact (find_sub_no _ _ Ef i s Hs El). }
  destruct (map_blocks_ok _ _ (xform_entry overlap schedule src b_ratio) tgt) as (xm & Ex & _ & Nx).
  { intros y _. destruct (Step y) as (e & Ee & _). exists e. exact Ee. }
  exists xm. split; [exact Ex|]. intros t y Ht. destruct (Nx t y Ht) as (e & He & Ee). exists e. split; [exact He|].
  destruct (Step y) as (e' & Ee' & P). rewrite Ee in Ee'. injection Ee' as <-. apply P. exact Ht.
Qed.

Lemma same_labels_fun : forall i i' t, same_labels src tgt i t -> same_labels src tgt i' t -> i = i'.
Proof.
  intros i i' t (x & y & Hx & Hy & E) (x' & y' & Hx' & Hy' & E'). rewrite Hy in Hy'. injection Hy' as <-.
  apply (proj1 (NoDup_nth_error (map labels_of src)) Hsrc); [rewrite map_length; apply nth_error_Some; congruence|].
  rewrite !nth_error_map, Hx, Hx'. cbn. congruence.
Qed.

Lemma component_ok : forall xm ssec sblk tsec, map_blocks (xform_entry overlap schedule src b_ratio) tgt = Ok xm ->
  rsectors_ok src ssec -> rsectors_ok tgt tsec -> rblocks_ok src ssec sblk ->
  exists r, xform_component src tgt ssec tsec sblk xm = Ok r /\ rblocks_ok tgt tsec r
  /\ forall q x m a b, nth_error tsec q = Some x -> nth_error r q = Some m -> (a < rdim tgt (fst x))%nat -> (b < rdim tgt (snd x))%nat ->
     transformed_element O src tgt ssec sblk x a b (at_ m a b).
Proof.
  intros xm ssec sblk tsec Exm [Ns Bs] [Nt Bt] Hb.
  destruct entries_ok as (xm' & Exm' & Hx). rewrite Exm in Exm'. injection Exm' as <-.
  assert (Step : forall x, In x tsec -> exists m, xform_sector src ssec sblk xm x (mzero 0 (rdim tgt (fst x)) (rdim tgt (snd x))) = Ok m
    /\ rows m = rdim tgt (fst x) /\ cols m = rdim tgt (snd x)
    /\ forall a b, (a < rdim tgt (fst x))%nat -> (b < rdim tgt (snd x))%nat -> transformed_element O src tgt ssec sblk x a b (at_ m a b)).
  { intros x Hxin. destruct (Bt x Hxin) as [L1 L2].
    destruct (nth_error tgt (fst x)) as [yb|] eqn:Eb; [|apply nth_error_None in Eb; unfold rspace in *; lia].
    destruct (nth_error tgt (snd x)) as [yk|] eqn:Ek; [|apply nth_error_None in Ek; unfold rspace in *; lia].
    assert (Db : rdim tgt (fst x) = r_dim yb) by (unfold rdim; rewrite Eb; reflexivity).
    assert (Dk : rdim tgt (snd x) = r_dim yk) by (unfold rdim; rewrite Ek; reflexivity).
    destruct (Hx _ _ Eb) as (eb & Hb1 & Pb). destruct (Hx _ _ Ek) as (ek & Hk1 & Pk).
    unfold xform_sector. rewrite Hb1, Hk1. cbn [get bind].
    destruct (fst eb) as [i|] eqn:Efb.
    2: { eexists. split; [reflexivity|]. split; [reflexivity|]. split; [reflexivity|]. intros a b _ _. right. split; [|reflexivity].
         intros s _ [S1 _]. exact (Pb _ S1). }
    destruct (fst ek) as [k|] eqn:Efk.
    2: { eexists. split; [reflexivity|]. split; [reflexivity|]. split; [reflexivity|]. intros a b _ _. right. split; [|reflexivity].
         intros s _ [_ S1]. exact (Pk _ S1). }
    destruct Pb as (Sb & Rb & Cb & Vb). destruct Pk as (Sk & Rk & Ck & Vk).
    destruct (look_up_sector ssec i k) as [q|] eqn:El.
    2: { eexists. split; [reflexivity|]. split; [reflexivity|]. split; [reflexivity|]. intros a b _ _. right. split; [|reflexivity].
         intros s Hs [S1 S2]. apply look_up_none in El. apply El.
         rewrite <- (same_labels_fun _ _ _ S1 Sb), <- (same_labels_fun _ _ _ S2 Sk). destruct s; exact Hs. }
    apply look_up_some in El. destruct (nth_error sblk q) as [m|] eqn:Em.
    2: { apply nth_error_None in Em. pose proof (Forall2_len _ _ _ Hb) as Hlen.
         assert (q < length ssec)%nat by (apply nth_error_Some; unfold lsectors in *; congruence). unfold lsectors, blocks in *; lia. }
    cbn [get bind]. destruct (F2n _ _ _ _ _ q (i, k) m Hb El Em) as [D1 D2]. cbn [fst snd] in D1, D2.
    set (full := if Nat.eqb i k then complete_lower m else m).
    assert (Rf : rows full = rdim src i) by (unfold full; destruct (Nat.eqb i k); exact D1).
    assert (Cf : cols full = rdim src k) by (unfold full; destruct (Nat.eqb i k); exact D2).
    assert (Vf : forall a b, at_ full a b = full_element (i, k) m a b).
    { intros a b. unfold full, full_element. cbn [fst snd]. destruct (Nat.eqb i k); reflexivity. }
    unfold mmul at 1. cbn [transpose rows cols]. rewrite Rb, Rf, Nat.eqb_refl. cbn [cassert bind].
    unfold mmul. cbn [cols rows]. rewrite Cf, Rk, Nat.eqb_refl. cbn [cassert bind]. eexists. split; [reflexivity|]. cbn [rows cols at_].
    split; [congruence|]. split; [congruence|]. intros a b La Lb. left. exists q, (i, k), m, yb, yk. cbn [fst snd].
    repeat (split; [assumption|]). rewrite rsum_swap. apply rsum_ext. intros i0 Hi0. rewrite <- rsum_scale_r. apply rsum_ext. intros j0 Hj0.
    cbn [transpose at_]. rewrite Vf, Vb, Vk by (lia || congruence). ring. }
  destruct (map_blocks_ok _ _ (fun x => xform_sector src ssec sblk xm x (mzero 0 (rdim tgt (fst x)) (rdim tgt (snd x)))) tsec) as (r & Er & Lr & Nr).
  { intros x Hx0. destruct (Step x Hx0) as (m & Em & _). exists m. exact Em. }
  exists r. split; [exact Er|].
  assert (Val : forall q x m, nth_error tsec q = Some x -> nth_error r q = Some m -> rows m = rdim tgt (fst x) /\ cols m = rdim tgt (snd x)
    /\ forall a b, (a < rdim tgt (fst x))%nat -> (b < rdim tgt (snd x))%nat -> transformed_element O src tgt ssec sblk x a b (at_ m a b)).
  { intros q x m Hq Hm. destruct (Nr q x Hq) as (m' & Hm' & Em'). rewrite Hm in Hm'. injection Hm' as <-.
    destruct (Step x (nth_error_In _ _ Hq)) as (m' & Em & P). rewrite Em' in Em. injection Em as <-. exact P. }
  split.
  - apply Forall2_intro; [unfold lsectors, blocks in *; congruence|]. intros q x m Hq Hm. destruct (Val q x m Hq Hm) as (R1 & R2 & _). split; assumption.
  - intros q x m a b Hq Hm. destruct (Val q x m Hq Hm) as (_ & _ & V). apply V.
Qed.
End Component.

Lemma xform_matrix_identity : forall overlap schedule sd td L, exists m, xform_matrix overlap schedule sd td L 1 = Ok m /\ rows m = sd /\ cols m = td
  /\ forall i j, (i < sd)%nat -> (j < td)%nat -> at_ m i j = if Nat.eqb i j then 1 else 0.
Proof.
  intros overlap schedule sd td L. unfold xform_matrix. destruct (Req_EM_T 1 1) as [_|N]; [|elim N; reflexivity].
  eexists. split; [reflexivity|]. split; [reflexivity|]. split; reflexivity.
Qed.
Lemma xform_matrix_overlaps : forall overlap schedule b_ratio O sd td L, complete_schedule schedule -> 0 < b_ratio -> b_ratio <> 1 ->
  (forall L i j, overlap L b_ratio i j = Some (O L i j)) ->
  exists m, xform_matrix overlap schedule sd td L b_ratio = Ok m /\ rows m = sd /\ cols m = td
  /\ forall i j, (i < sd)%nat -> (j < td)%nat -> at_ m i j = O L i j.
Proof.
  intros overlap schedule b_ratio O sd td L Hs Hp Hne HO. unfold xform_matrix. destruct (Req_EM_T b_ratio 1) as [E|_]; [contradiction|].
  destruct (Rlt_dec 0 b_ratio) as [_|N]; [|contradiction]. cbn [cassert bind].
  apply (fill_any_order R 0 sd td (fun i j => match overlap L b_ratio i j with Some v => Ok v | None => Exit end) (O L)); [|apply Hs].
  intros i j _ _. rewrite HO. reflexivity.
Qed.

(** * schedules *)
Lemma loop_defined : forall (ov : nat -> nat -> option R) l m r,
  loop2 l (fun i j m => v <- (match ov i j with Some v => Ok v | None => Exit end) ;; mat_put m i j v) m = Ok r ->
  forall i j, In (i, j) l -> exists v, ov i j = Some v.
Proof.
  intros ov l. induction l as [|[a b] l IH]; intros m r H i j []; cbn [loop2] in H.
  - injection H0 as -> ->. destruct (ov i j) as [v|]; [eauto|discriminate].
  - apply bind_inv in H. destruct H as (m' & _ & H). eapply IH; eassumption.
Qed.
Lemma xform_matrix_schedule : forall overlap s1 s2 sd td L b m, complete_schedule s1 -> complete_schedule s2 ->
  xform_matrix overlap s1 sd td L b = Ok m -> exists m', xform_matrix overlap s2 sd td L b = Ok m' /\ meq m m'.
Proof.
  intros overlap s1 s2 sd td L b m H1 H2 H. unfold xform_matrix in *. destruct (Req_EM_T b 1).
  - exists m. split; [exact H|]. split; [reflexivity|]. split; reflexivity.
  - destruct (Rlt_dec 0 b); [|discriminate]. cbn [cassert bind] in *.
    assert (D : forall i j, (i < sd)%nat -> (j < td)%nat -> exists v, overlap L b i j = Some v).
    { intros i j Hi Hj. eapply (loop_defined (overlap L b)); [exact H|]. eapply Permutation_in; [apply Permutation_sym, H1|]. apply in_pairs. auto. }
    set (f := fun i j => match overlap L b i j with Some v => v | None => 0 end).
    assert (E : forall i j, (i < sd)%nat -> (j < td)%nat -> (match overlap L b i j with Some v => Ok v | None => Exit end) = Ok (f i j)).
    { intros i j Hi Hj. unfold f. destruct (D i j Hi Hj) as (v & ->). reflexivity. }
    destruct (fill_any_order R 0 sd td _ f (s1 sd td) E (H1 sd td)) as (r1 & Er1 & R1 & C1 & V1).
    destruct (fill_any_order R 0 sd td _ f (s2 sd td) E (H2 sd td)) as (r2 & Er2 & R2 & C2 & V2).
    rewrite Er1 in H. injection H as <-. exists r2. split; [exact Er2|]. split; [congruence|]. split; [congruence|].
    intros i j Hi Hj. rewrite V1, V2 by congruence. reflexivity.
Qed.
Definition eq_entry (e e' : option nat * mat R) : Prop := fst e = fst e' /\ meq (snd e) (snd e').
Lemma entries_schedule : forall overlap s1 s2 src b tgt xm, complete_schedule s1 -> complete_schedule s2 ->
  map_blocks (xform_entry overlap s1 src b) tgt = Ok xm -> exists xm', map_blocks (xform_entry overlap s2 src b) tgt = Ok xm' /\ Forall2 eq_entry xm xm'.
Proof.
  intros overlap s1 s2 src b tgt. induction tgt as [|t tgt IH]; intros xm H1 H2 H; cbn in *.
  - injection H as <-. exists []. split; [reflexivity|constructor].
  - apply bind_inv in H. destruct H as (e & He & H). apply bind_inv in H. destruct H as (r & Hr & H). injection H as <-.
    destruct (IH r H1 H2 Hr) as (r' & Hr' & F). rewrite Hr'.
    assert (G : exists e', xform_entry overlap s2 src b t = Ok e' /\ eq_entry e e').
    { unfold xform_entry in *. destruct (find_sub _ _ _ _ _ _) as [i|].
      - destruct (nth_error src i) as [s|]; [|discriminate]. cbn [get bind] in *. apply bind_inv in He. destruct He as (m & Hm & He). injection He as <-.
        destruct (xform_matrix_schedule overlap s1 s2 _ _ _ _ _ H1 H2 Hm) as (m' & Hm' & E). rewrite Hm'. cbn [bind]. eexists. split; [reflexivity|]. split; [reflexivity|exact E].
      - injection He as <-. eexists. split; [reflexivity|]. split; [reflexivity|]. split; [reflexivity|]. split; reflexivity. }
    destruct G as (e' & -> & Ee). cbn [bind]. eexists. split; [reflexivity|]. constructor; assumption.
Qed.
Lemma mmul_meq : forall a b a' b' m, meq a a' -> meq b b' -> mmul a b = Ok m -> exists m', mmul a' b' = Ok m' /\ meq m m'.
Proof.
  intros a b a' b' m (Ra & Ca & Va) (Rb & Cb & Vb) H. unfold mmul in *. rewrite <- Ca, <- Rb.
  destruct (Nat.eqb_spec (cols a) (rows b)) as [E|]; [|discriminate]. cbn [cassert bind] in *. injection H as <-.
  eexists. split; [reflexivity|]. split; [exact Ra|]. split; [exact Cb|]. cbn [rows cols at_]. intros i j Hi Hj. apply rsum_ext. intros k Hk.
  rewrite Va, Vb by lia. reflexivity.
Qed.
Lemma transpose_meq : forall a a', meq a a' -> meq (transpose a) (transpose a').
Proof. intros a a' (R & C & V). split; [exact C|]. split; [exact R|]. cbn. intros i j Hi Hj. apply V; assumption. Qed.
Lemma meq_refl : forall m, meq m m.
Proof. intros m. split; [reflexivity|]. split; reflexivity. Qed.
Lemma F2_nth_l : forall A B (P : A -> B -> Prop) l l' i x, Forall2 P l l' -> nth_error l i = Some x -> exists y, nth_error l' i = Some y /\ P x y.
Proof. intros A B P l l' i x F. revert i. induction F; intros [|i] H'; cbn in *; try discriminate; [injection H' as <-; eauto|eauto]. Qed.

Lemma sector_schedule : forall src ssec sblk xm xm' x t0 m, Forall2 eq_entry xm xm' -> xform_sector src ssec sblk xm x t0 = Ok m ->
  exists m', xform_sector src ssec sblk xm' x t0 = Ok m' /\ meq m m'.
Proof.
  intros src ssec sblk xm xm' x t0 m F H. unfold xform_sector in *.
  destruct (nth_error xm (fst x)) as [eb|] eqn:Eb; [|discriminate]. destruct (F2_nth_l _ _ _ _ _ _ _ F Eb) as (eb' & Eb' & Fb & Mb).
  destruct (nth_error xm (snd x)) as [ek|] eqn:Ek; [|discriminate]. destruct (F2_nth_l _ _ _ _ _ _ _ F Ek) as (ek' & Ek' & Fk & Mk).
  rewrite Eb', Ek'. cbn [get bind] in *. rewrite <- Fb, <- Fk.
  destruct (fst eb) as [b|]; [|exists m; split; [exact H|apply meq_refl]]. destruct (fst ek) as [k|]; [|exists m; split; [exact H|apply meq_refl]].
  destruct (look_up_sector ssec b k) as [i|]; [|exists m; split; [exact H|apply meq_refl]].
  destruct (nth_error sblk i) as [s|]; [|discriminate]. cbn [get bind] in *. apply bind_inv in H. destruct H as (p & Hp & H).
  destruct (mmul_meq _ _ _ _ _ (transpose_meq _ _ Mb) (meq_refl _) Hp) as (p' & Hp' & Ep). rewrite Hp'. cbn [bind].
  exact (mmul_meq _ _ _ _ _ Ep Mk H).
Qed.
Lemma component_schedule : forall src tgt ssec tsec sblk xm xm' r, Forall2 eq_entry xm xm' -> xform_component src tgt ssec tsec sblk xm = Ok r ->
  exists r', xform_component src tgt ssec tsec sblk xm' = Ok r' /\ Forall2 meq r r'.
Proof.
  intros src tgt ssec tsec sblk xm xm' r F. unfold xform_component. revert r. induction tsec as [|x tsec IH]; intros r H; cbn in *.
  - injection H as <-. exists []. split; [reflexivity|constructor].
  - apply bind_inv in H. destruct H as (m & Hm & H). apply bind_inv in H. destruct H as (r0 & Hr & H). injection H as <-.
    destruct (sector_schedule _ _ _ _ _ _ _ _ F Hm) as (m' & Hm' & E). destruct (IH r0 Hr) as (r' & Hr' & F'). rewrite Hm'. cbn [bind]. rewrite Hr'. cbn [bind].
    eexists. split; [reflexivity|]. constructor; assumption.
Qed.
Lemma transform_schedule : forall overlap s1 s2 sp tp src tgt ssec tsec sblk b out, complete_schedule s1 -> complete_schedule s2 ->
  transform_relative overlap s1 sp tp src tgt ssec tsec sblk b = Ok out ->
  exists out', transform_relative overlap s2 sp tp src tgt ssec tsec sblk b = Ok out' /\ Forall2 (Forall2 meq) out out'.
Proof.
  intros overlap s1 s2 sp tp src tgt ssec tsec sblk b out H1 H2 H. unfold transform_relative in *.
  destruct (rq_J0 tp =? rq_J0 sp)%Z; [|discriminate]. destruct (rq_g0 tp =? rq_g0 sp)%Z; [|discriminate]. destruct (rq_T0_max tp <=? rq_T0_max sp)%Z; [|discriminate].
  destruct (rq_T0_min tp >=? rq_T0_min sp)%Z; [|discriminate]. destruct (rq_Jmax tp <=? rq_Jmax sp)%Z; [|discriminate]. cbn [cassert bind] in *.
  apply bind_inv in H. destruct H as (xm & Hxm & H). destruct (entries_schedule _ _ _ _ _ _ _ H1 H2 Hxm) as (xm' & -> & F). cbn [bind].
  revert out H. induction (zrange (rq_T0_min tp) (rq_T0_max tp)) as [|T0 l IH]; intros out H; cbn in *.
  - injection H as <-. exists []. split; [reflexivity|constructor].
  - apply bind_inv in H. destruct H as (m & Hm & H). apply bind_inv in H. destruct H as (r0 & Hr & H). injection H as <-.
    destruct (component_schedule _ _ _ _ _ _ _ _ F Hm) as (m' & -> & E). cbn [bind]. destruct (IH r0 Hr) as (r' & -> & F'). cbn [bind].
    eexists. split; [reflexivity|]. constructor; assumption.
Qed.

(** * the whole operator *)
Definition params_compatible (sp tp : rparams) : Prop :=
  (rq_J0 tp = rq_J0 sp /\ rq_g0 tp = rq_g0 sp /\ rq_T0_max tp <= rq_T0_max sp /\ rq_T0_min sp <= rq_T0_min tp /\ rq_Jmax tp <= rq_Jmax sp)%Z.
Section Operator.
Variable overlap : Z -> R -> nat -> nat -> option R.
Variable schedule : nat -> nat -> list (nat * nat).
Variable b_ratio : R.
Variable O : Z -> nat -> nat -> R.
Hypothesis HO : forall sd td L, exists m, xform_matrix overlap schedule sd td L b_ratio = Ok m /\ rows m = sd /\ cols m = td
  /\ forall i j, (i < sd)%nat -> (j < td)%nat -> at_ m i j = O L i j.
Lemma transform_gen : forall sp tp src tgt ssec tsec sblk, params_compatible sp tp -> rspace_ok src -> rspace_ok tgt ->
  (forall T0, rsectors_ok src (ssec T0) /\ rsectors_ok tgt (tsec T0) /\ rblocks_ok src (ssec T0) (sblk T0)) ->
  exists out, transform_relative overlap schedule sp tp src tgt ssec tsec sblk b_ratio = Ok out
  /\ length out = length (zrange (rq_T0_min tp) (rq_T0_max tp))
  /\ forall c T0 r, nth_error (zrange (rq_T0_min tp) (rq_T0_max tp)) c = Some T0 -> nth_error out c = Some r ->
     rblocks_ok tgt (tsec T0) r
     /\ forall q x m a b, nth_error (tsec T0) q = Some x -> nth_error r q = Some m -> (a < rdim tgt (fst x))%nat -> (b < rdim tgt (snd x))%nat ->
        transformed_element O src tgt (ssec T0) (sblk T0) x a b (at_ m a b).
Proof.
  intros sp tp src tgt ssec tsec sblk (P1 & P2 & P3 & P4 & P5) Hs Ht Hc. unfold transform_relative.
  rewrite (proj2 (Z.eqb_eq _ _) P1), (proj2 (Z.eqb_eq _ _) P2), (proj2 (Z.leb_le _ _) P3), (proj2 (Z.leb_le _ _) P5).
  assert (E : (rq_T0_min tp >=? rq_T0_min sp)%Z = true) by (apply Z.geb_le; lia). rewrite E. cbn [cassert bind].
  destruct (entries_ok overlap schedule b_ratio O HO src tgt) as (xm & Exm & _). rewrite Exm. cbn [bind].
  assert (Step : forall T0, exists r, xform_component src tgt (ssec T0) (tsec T0) (sblk T0) xm = Ok r /\ rblocks_ok tgt (tsec T0) r
     /\ forall q x m a b, nth_error (tsec T0) q = Some x -> nth_error r q = Some m -> (a < rdim tgt (fst x))%nat -> (b < rdim tgt (snd x))%nat ->
        transformed_element O src tgt (ssec T0) (sblk T0) x a b (at_ m a b)).
  { intros T0. destruct (Hc T0) as (H1 & H2 & H3). eapply component_ok; eassumption. }
  destruct (map_blocks_ok _ _ (fun T0 => xform_component src tgt (ssec T0) (tsec T0) (sblk T0) xm) (zrange (rq_T0_min tp) (rq_T0_max tp))) as (out & Eo & Lo & No).
  { intros T0 _. destruct (Step T0) as (r & Er & _). exists r. exact Er. }
  exists out. split; [exact Eo|]. split; [exact Lo|]. intros c T0 r Hc0 Hr. destruct (No c T0 Hc0) as (r' & Hr' & Er').
  rewrite Hr in Hr'. injection Hr' as <-. destruct (Step T0) as (r' & Er & P). rewrite Er' in Er. injection Er as <-. exact P.
Qed.
End Operator.

(** overlaps of equal functions *)
Lemma delta_element : forall src tgt ssec sblk x a b v, rspace_ok src ->
  rsectors_ok src ssec -> transformed_element (fun _ i j => if Nat.eqb i j then 1 else 0) src tgt ssec sblk x a b v ->
  forall q s m, nth_error ssec q = Some s -> nth_error sblk q = Some m -> same_labels src tgt (fst s) (fst x) -> same_labels src tgt (snd s) (snd x) ->
  v = if (Nat.ltb a (rdim src (fst s)) && Nat.ltb b (rdim src (snd s)))%bool then full_element s m a b else 0.
Proof.
  intros src tgt ssec sblk x a b v Hsrc [Ns _] [H|[H _]] q s m Hq Hm L1 L2.
  - destruct H as (q' & s' & m' & xb & xk & Hq' & Hm' & L1' & L2' & _ & _ & ->).
    assert (s' = s) by (destruct s', s; cbn in *; f_equal; eapply same_labels_fun; eassumption). subst s'.
    assert (q' = q) by (apply (proj1 (NoDup_nth_error ssec) Ns); [apply nth_error_Some; unfold lsectors in *; congruence|congruence]). subst q'.
    rewrite Hm in Hm'. injection Hm' as <-.
    destruct (Nat.ltb_spec a (rdim src (fst s))) as [La|La]; cbn [andb].
    + rewrite (rsum_one _ a); [|exact La|intros i Hi Hne; apply rsum_0; intros j _; destruct (Nat.eqb_spec i a); [contradiction|ring]].
      rewrite Nat.eqb_refl. destruct (Nat.ltb_spec b (rdim src (snd s))) as [Lb|Lb].
      * rewrite (rsum_one _ b); [|exact Lb|intros j Hj Hne; destruct (Nat.eqb_spec j b); [contradiction|ring]].
        rewrite Nat.eqb_refl. ring.
      * apply rsum_0. intros j Hj. destruct (Nat.eqb_spec j b); [lia|ring].
    + apply rsum_0. intros i Hi. apply rsum_0. intros j _. destruct (Nat.eqb_spec i a); [lia|ring].
  - elim (H s (nth_error_In _ _ Hq)). auto.
Qed.
Lemma same_labels_refl : forall sp i, (i < length sp)%nat -> same_labels sp sp i i.
Proof. intros sp i H. destruct (nth_error sp i) as [x|] eqn:E; [exists x, x; auto|apply nth_error_None in E; unfold rspace in *; lia]. Qed.
Lemma unchanged : forall overlap schedule sp src ssec sblk, (rq_T0_min sp <= rq_T0_max sp)%Z -> rspace_ok src ->
  (forall T0, rsectors_ok src (ssec T0) /\ rblocks_ok src (ssec T0) (sblk T0)) ->
  exists out, transform_relative overlap schedule sp sp src src ssec ssec sblk 1 = Ok out
  /\ length out = length (zrange (rq_T0_min sp) (rq_T0_max sp))
  /\ forall c T0 r, nth_error (zrange (rq_T0_min sp) (rq_T0_max sp)) c = Some T0 -> nth_error out c = Some r ->
     rblocks_ok src (ssec T0) r
     /\ forall q x m m' a b, nth_error (ssec T0) q = Some x -> nth_error (sblk T0) q = Some m -> nth_error r q = Some m' ->
        (a < rdim src (fst x))%nat -> (b < rdim src (snd x))%nat -> at_ m' a b = full_element x m a b.
Proof.
  intros overlap schedule sp src ssec sblk HT Hs Hc.
  destruct (transform_gen overlap schedule 1 (fun _ i j => if Nat.eqb i j then 1 else 0) (xform_matrix_identity overlap schedule)
    sp sp src src ssec ssec sblk) as (out & Eo & Lo & Vo); auto.
  { unfold params_compatible. lia. } { intros T0. destruct (Hc T0). auto. }
  exists out. split; [exact Eo|]. split; [exact Lo|]. intros c T0 r Hc0 Hr. destruct (Vo c T0 r Hc0 Hr) as [B V]. split; [exact B|].
  intros q x m m' a b Hx Hm Hm' Ha Hb. specialize (V q x m' a b Hx Hm' Ha Hb). destruct (Hc T0) as [[Ns Bs] _].
  destruct (Bs x (nth_error_In _ _ Hx)) as [B1 B2].
  rewrite (delta_element src src (ssec T0) (sblk T0) x a b _ Hs (conj Ns Bs) V q x m Hx Hm (same_labels_refl _ _ B1) (same_labels_refl _ _ B2)).
  rewrite (proj2 (Nat.ltb_lt _ _) Ha), (proj2 (Nat.ltb_lt _ _) Hb). reflexivity.
Qed.

(** * what is refused *)
Lemma incompatible_refused : forall overlap schedule sp tp src tgt ssec tsec sblk b, ~ params_compatible sp tp ->
  transform_relative overlap schedule sp tp src tgt ssec tsec sblk b = AssertFail.
Proof.
  intros overlap schedule sp tp src tgt ssec tsec sblk b H. unfold transform_relative, params_compatible in *.
  destruct (Z.eqb_spec (rq_J0 tp) (rq_J0 sp)); [|reflexivity]. destruct (Z.eqb_spec (rq_g0 tp) (rq_g0 sp)); [|reflexivity].
  destruct (Z.leb_spec (rq_T0_max tp) (rq_T0_max sp)); [|reflexivity]. destruct (Z.geb_spec (rq_T0_min tp) (rq_T0_min sp)); [|reflexivity].
  destruct (Z.leb_spec (rq_Jmax tp) (rq_Jmax sp)); [|reflexivity]. elim H. lia.
Qed.
Lemma nonpositive_refused : forall overlap schedule sp tp src tgt ssec tsec sblk b i t, b <= 0 -> same_labels src tgt i t -> rspace_ok src ->
  transform_relative overlap schedule sp tp src tgt ssec tsec sblk b = AssertFail.
Proof.
  intros overlap schedule sp tp src tgt ssec tsec sblk b i t Hb (x & y & Hx & Hy & El) Hs. unfold transform_relative.
  do 5 match goal with |- (cassert ?c ;;; _) = _ => destruct c; [cbn [cassert bind]|reflexivity] end.
  assert (M : forall s d L, xform_matrix overlap schedule s d L b = AssertFail).
  { intros. unfold xform_matrix. destruct (Req_EM_T b 1); [lra|]. destruct (Rlt_dec 0 b); [lra|reflexivity]. }
  assert (E : forall u, xform_entry overlap schedule src b u = Ok (None, mzero 0 0 0) \/ xform_entry overlap schedule src b u = AssertFail).
  { intros u. unfold xform_entry. destruct (find_sub _ _ _ _ _ _) as [k|] eqn:Ef; [|left; reflexivity]. right.
    destruct (find_sub_inv _ _ _ Ef) as (s & Es & _). rewrite Es. cbn [get bind]. rewrite M. reflexivity. }
  assert (F : map_blocks (xform_entry overlap schedule src b) tgt = AssertFail); [|rewrite F; reflexivity].
  clear - Hy El Hx Hs M E. revert t Hy. induction tgt as [|u tgt IH]; intros [|t] Hy; try discriminate; cbn [nth_error map_blocks] in *.
  - injection Hy as ->. assert (xform_entry overlap schedule src b y = AssertFail); [|rewrite H; reflexivity].
    unfold xform_entry. rewrite (find_sub_ok src i x) by (try assumption; rewrite El; reflexivity). rewrite Hx. cbn [get bind]. rewrite M. reflexivity.
  - destruct (E u) as [-> | ->]; cbn [bind]; [|reflexivity]. rewrite (IH t Hy). reflexivity.
Qed.
