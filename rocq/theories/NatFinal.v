From Coq Require Import List ZArith Reals Bool Sorted Permutation Lia Lra.
From Verif Require Import Base BaseLemmas RMat H2Model MapModel OscModel OscSpec OscProof BlockModel BlockSpec BlockProof BlockFinal
  ObioModel ObioProof ObmModel ObmSpec ObmProof ObmFinal ObmFin2 NatModel NatSpec NatProof.
Import ListNotations.
Open Scope R_scope.

(** * Spaces of permuted orbital lists *)
Lemma sorted_ext : forall l k, StronglySorted lt_lab l -> StronglySorted lt_lab k -> (forall x, In x l <-> In x k) -> l = k.
Proof.
  induction l as [|a l IH]; intros k Hl Hk H.
  - destruct k as [|b k]; [reflexivity|]. elim (proj2 (H b)). left. reflexivity.
  - destruct k as [|b k]; [elim (proj1 (H a)); left; reflexivity|].
    inversion Hl as [|? ? Hl' Fl]; inversion Hk as [|? ? Hk' Fk]; subst. rewrite Forall_forall in Fl, Fk.
    assert (E : a = b).
    { destruct (proj1 (H a) (or_introl eq_refl)) as [E|E]; [auto|]. destruct (proj2 (H b) (or_introl eq_refl)) as [E'|E']; [auto|].
      apply Fl in E'. apply Fk in E. pose proof (lab_ltb_trans _ _ _ E E') as C. rewrite lab_ltb_irrefl in C. discriminate. }
    subst b. f_equal. apply IH; [assumption..|]. intros x. specialize (H x). cbn in H. split; intros Hx.
    + destruct (proj1 H (or_intror Hx)) as [<-|]; [|assumption]. apply Fl in Hx. unfold lt_lab in Hx. rewrite lab_ltb_irrefl in Hx. discriminate.
    + destruct (proj2 H (or_intror Hx)) as [<-|]; [|assumption]. apply Fk in Hx. unfold lt_lab in Hx. rewrite lab_ltb_irrefl in Hx. discriminate.
Qed.
Lemma filter_perm : forall A (p : A -> bool) l k, Permutation l k -> Permutation (filter p l) (filter p k).
Proof.
  intros A p l k H. induction H; cbn.
  - constructor.
  - destruct (p x); [constructor|]; assumption.
  - destruct (p x), (p y); try reflexivity. apply perm_swap.
  - etransitivity; eassumption.
Qed.
Lemma perm_labels : forall os os' : list (oinfo R), Permutation os os' -> map fst (mk_wspace os') = map fst (mk_wspace os).
Proof.
  intros os os' H. unfold mk_wspace. rewrite !map_map. cbn. rewrite !map_id. apply sorted_ext; [apply labels_sorted..|].
  intros x. rewrite !labels_in. split; apply Permutation_in; [symmetry|]; apply Permutation_map; exact H.
Qed.
Lemma states_perm : forall (os os' : list (oinfo R)) a, Permutation os os' -> Permutation (states_of a os) (states_of a os').
Proof. intros. unfold states_of. apply Permutation_map, filter_perm. assumption. Qed.
Lemma forget_mk : forall (os : list (oinfo R)), forget (mk_wspace os) = map (fun a => (a, map fst (states_of a os))) (fold_right lab_insert [] (map oi_lab os)).
Proof. intros. unfold forget, mk_wspace. rewrite map_map. reflexivity. Qed.
Lemma perm_dims : forall (os os' : list (oinfo R)) I, Permutation os os' -> sub_dim (forget (mk_wspace os')) I = sub_dim (forget (mk_wspace os)) I.
Proof.
  intros os os' I H. pose proof (perm_labels os os' H) as E. unfold mk_wspace in E. rewrite !map_map in E. cbn in E. rewrite !map_id in E.
  rewrite !forget_mk, E. unfold sub_dim. rewrite !nth_error_map. destruct (nth_error _ I) as [a|]; [|reflexivity]. cbn.
  rewrite !map_length. apply Permutation_length, states_perm. symmetry. exact H.
Qed.
Lemma perm_length : forall (os os' : list (oinfo R)), Permutation os os' -> length (forget (mk_wspace os')) = length (forget (mk_wspace os)).
Proof. intros os os' H. rewrite <- !(map_length fst (forget _)), !forget_labels, (perm_labels os os' H). reflexivity. Qed.
Lemma info_perm : forall os : list (oinfo R), Permutation (orbital_info (mk_wspace os)) os.
Proof.
  intros os. unfold orbital_info, mk_wspace. rewrite flat_map_concat_map, map_map. cbn.
  assert (G : forall ls, NoDup ls -> forall os : list (oinfo R), (forall o, In o os -> In (oi_lab o) ls) ->
    Permutation (concat (map (fun a => map (fun p => OI a (fst p) (snd p)) (states_of a os)) ls)) os).
  { assert (F : forall (os : list (oinfo R)) a, map (fun p => OI a (fst p) (snd p)) (states_of a os) = filter (fun o => llabel_eqb (oi_lab o) a) os).
    { intros os0 a. unfold states_of. rewrite map_map. cbn [fst snd]. induction os0 as [|[b n w] os0 IH]; [reflexivity|]. cbn [filter oi_lab]. destruct (llabel_eqb b a) eqn:E; [|exact IH].
      cbn [map oi_n oi_w]. rewrite IH. apply llabel_eqb_ok in E. subst b. reflexivity. }
    induction ls as [|a ls IH]; intros Hn os0 H0; cbn.
    - destruct os0 as [|o os0]; [constructor|]. elim (H0 o). left. reflexivity.
    - inversion Hn as [|? ? Hna Hn']; subst. rewrite F.
      assert (P : Permutation (filter (fun o => llabel_eqb (oi_lab o) a) os0 ++ filter (fun o => negb (llabel_eqb (oi_lab o) a)) os0) os0).
      { clear. induction os0 as [|o os0 IH]; [constructor|]. cbn. destruct (llabel_eqb (oi_lab o) a); cbn; [constructor; exact IH|].
        rewrite <- Permutation_middle. constructor. exact IH. }
      etransitivity; [|exact P]. apply Permutation_app_head.
      etransitivity; [|apply (IH Hn' (filter (fun o => negb (llabel_eqb (oi_lab o) a)) os0))].
      + erewrite map_ext_in; [reflexivity|]. intros b Hb. cbn beta. rewrite !F. clear - Hb Hna. induction os0 as [|o os0 IH]; [reflexivity|]. cbn.
        destruct (llabel_eqb (oi_lab o) a) eqn:E1; cbn; destruct (llabel_eqb (oi_lab o) b) eqn:E2; cbn; rewrite ?E2, ?IH; try reflexivity.
        apply llabel_eqb_ok in E1. apply llabel_eqb_ok in E2. congruence.
      + intros o Ho. apply filter_In in Ho. destruct Ho as [Ho E]. destruct (H0 o Ho) as [Ea|]; [|assumption].
        rewrite (proj2 (llabel_eqb_ok (oi_lab o) a) (eq_sym Ea)) in E. discriminate. }
  apply G; [apply sorted_nodup, labels_sorted|]. intros o Ho. apply labels_in, in_map. exact Ho.
Qed.

(** * The scalar sectors are the diagonal ones *)
Lemma filter_eq_seq : forall x a n, (a <= x < a + n)%nat -> filter (fun y => Nat.eqb x y) (seq a n) = [x].
Proof.
  intros x a n. revert a. induction n as [|n IH]; intros a H; [lia|]. cbn. destruct (Nat.eqb x a) eqn:E.
  - apply Nat.eqb_eq in E. subst a. f_equal. clear. assert (G : forall b, (x < b)%nat -> filter (fun y => Nat.eqb x y) (seq b n) = []).
    { induction n as [|n IH]; intros b Hb; [reflexivity|]. cbn. destruct (Nat.eqb x b) eqn:E; [apply Nat.eqb_eq in E; lia|]. apply IH. lia. }
    apply G. lia.
  - apply Nat.eqb_neq in E. apply IH. lia.
Qed.
Lemma filter_diag : forall l n, (forall x, In x l -> (x < n)%nat) ->
  filter (fun p => Nat.eqb (fst p) (snd p)) (list_prod l (seq 0 n)) = map (fun i => (i, i)) l.
Proof.
  induction l as [|x l IH]; intros n H; [reflexivity|]. cbn [list_prod map]. rewrite filter_app, IH by (intros; apply H; right; assumption).
  assert (E : forall k, filter (fun p => Nat.eqb (fst p) (snd p)) (map (fun y => (x, y)) k) = map (fun y => (x, y)) (filter (fun y => Nat.eqb x y) k)).
  { induction k as [|y k IHk]; [reflexivity|]. cbn. destruct (Nat.eqb x y); cbn; rewrite IHk; reflexivity. }
  rewrite E, filter_eq_seq; [reflexivity|]. specialize (H x (or_introl eq_refl)). lia.
Qed.
Lemma scalar_diag : forall s, orbitals_ok s -> sectors_of (forget s) (forget s) (0, 0, 0)%Z = map (fun i => (i, i)) (seq 0 (length (forget s))).
Proof.
  intros s Hs. rewrite <- (filter_diag (seq 0 (length (forget s))) (length (forget s))) by (intros x Hx; apply in_seq in Hx; lia).
  cbn [sectors_of]. unfold mk_lsectors. apply filter_ext_in. intros [I K] Hin. apply in_prod_iff in Hin. rewrite !in_seq in Hin. cbn [fst snd].
  assert (HI : (I < length (forget s))%nat) by lia. assert (HK : (K < length (forget s))%nat) by lia.
  pose proof (scalar_in s s I K Hs Hs) as HS. cbn [sectors_of] in HS. unfold mk_lsectors in HS. rewrite filter_In in HS. cbn [fst snd] in HS.
  destruct (Nat.eqb I K) eqn:E.
  - apply Nat.eqb_eq in E. subst K. apply HS. auto.
  - destruct (match nth_error (forget s) I with Some _ => _ | None => _ end) eqn:Em; [|reflexivity]. apply Nat.eqb_neq in E. elim E.
    destruct (proj1 HS) as (_ & _ & HL); [split; [apply in_prod_iff; rewrite !in_seq; lia|reflexivity]|].
    destruct (nth_lt _ _ _ HI) as [x Hx]. assert (L1 : label_of (forget s) I = Some (fst x)) by (unfold label_of; rewrite Hx; reflexivity).
    apply (label_unique (forget s) I K (fst x)); [apply ok_distinct; exact Hs|exact L1|congruence].
Qed.
Lemma same_sectors : forall bra ket ket' q, map fst ket' = map fst ket -> sectors_of bra ket' q = sectors_of bra ket q.
Proof.
  intros bra ket ket' [[J0 g0] Tz0] H. cbn. unfold mk_lsectors. assert (L : length ket' = length ket) by (rewrite <- (map_length fst ket'), H; apply map_length).
  rewrite L. apply filter_ext. intros [I K]. cbn. destruct (nth_error bra I) as [b|]; [|reflexivity].
  assert (E : option_map fst (nth_error ket' K) = option_map fst (nth_error ket K)) by (rewrite <- !nth_error_map, H; reflexivity).
  destruct (nth_error ket' K), (nth_error ket K); cbn in E; congruence.
Qed.

(** * The loop over sectors *)
Section Loop.
Variable solve : mat R -> list R * mat R.
Definition occ_of (ms : blocks R) (I i : nat) : R := match nth_error ms I with Some m => nth i (rev (fst (solve m))) 0 | None => 0 end.
Definition lines_of (lab : llabel) (vals : list R) : list (oinfo R) := map (fun iv => OI lab (Z.of_nat (fst iv)) (snd iv)) (combine (seq 0 (length vals)) vals).
Lemma lines_seq : forall lab vals, lines_of lab vals = map (fun i => OI lab (Z.of_nat i) (nth i vals 0)) (seq 0 (length vals)).
Proof.
  intros lab vals. unfold lines_of. assert (G : forall k a (f : nat -> R), (forall i, (i < length k)%nat -> f (a + i)%nat = nth i k 0) ->
    map (fun iv : nat * R => OI lab (Z.of_nat (fst iv)) (snd iv)) (combine (seq a (length k)) k) = map (fun i => OI lab (Z.of_nat i) (f i)) (seq a (length k))).
  { induction k as [|x k IH]; intros a f H; [reflexivity|]. cbn. f_equal.
    - specialize (H 0%nat). cbn in H. rewrite Nat.add_0_r in H. rewrite H by lia. reflexivity.
    - apply IH. intros i Hi. specialize (H (S i)). cbn in H. rewrite <- H by lia. f_equal. lia. }
  apply (G vals 0%nat (fun i => nth i vals 0)). intros. reflexivity.
Qed.
Lemma natural_blocks_ok : forall labs s ms, Forall2 (fun x m => (fst x < length labs)%nat /\ rows m = cols m) s ms ->
  exists occ, natural_blocks solve labs s ms = Ok (map (fun m => reverse_columns (snd (solve m))) ms, occ)
  /\ occ = flat_map (fun xm => match nth_error labs (fst (fst xm)) with Some lab => lines_of (fst lab) (rev (fst (solve (snd xm)))) | None => [] end) (combine s ms).
Proof.
  intros labs s ms H. induction H as [|x m s ms [Hx Hm] H (occ & E & Eo)]; cbn [natural_blocks].
  - exists []. auto.
  - destruct (nth_lt _ _ _ Hx) as [lab Hl]. cbn [nth_error get bind tl]. unfold diagonalise. rewrite Hl. cbn [get bind]. rewrite Hm, Nat.eqb_refl. cbn [cassert bind].
    rewrite E. cbn [bind]. eexists. split; [reflexivity|]. cbn [combine flat_map fst snd]. rewrite Hl, Eo. reflexivity.
Qed.
End Loop.

(** * Reversed eigenvectors *)
Lemma rsum_rev : forall n f, rsum n (fun i => f (n - 1 - i)%nat) = rsum n f.
Proof.
  intros n f. unfold rsum. rewrite <- (lsum_map _ _ (fun i => (n - 1 - i)%nat) (seq 0 n) f). apply lsum_perm.
  apply NoDup_Permutation_bis.
  - assert (G : forall a k, (a + k <= n)%nat -> NoDup (map (fun i => (n - 1 - i)%nat) (seq a k))).
    { intros a k. revert a. induction k as [|k IH]; intros a Hk; cbn; constructor; [|apply IH; lia].
      intros Hin. apply in_map_iff in Hin. destruct Hin as (y & Hy & Hin). apply in_seq in Hin. lia. }
    apply G. lia.
  - rewrite map_length, !seq_length. lia.
  - intros x Hx. apply in_map_iff in Hx. destruct Hx as (y & <- & Hy). apply in_seq in Hy. apply in_seq. lia.
Qed.
Lemma eqb_rev : forall n i j, (i < n)%nat -> (j < n)%nat -> Nat.eqb (n - 1 - i) (n - 1 - j) = Nat.eqb i j.
Proof. intros n i j Hi Hj. destruct (Nat.eqb i j) eqn:E; [apply Nat.eqb_eq in E; subst; apply Nat.eqb_refl|]. apply Nat.eqb_neq in E. apply Nat.eqb_neq. lia. Qed.
Lemma nth_rev_vals : forall (l : list R) i, (i < length l)%nat -> nth i (rev l) 0 = nth (length l - 1 - i) l 0.
Proof. intros l i H. rewrite rev_nth by exact H. f_equal. lia. Qed.
Lemma sorted_nth : forall (l : list R) i j, StronglySorted Rle l -> (i <= j < length l)%nat -> nth i l 0 <= nth j l 0.
Proof.
  intros l i j H. revert i j. induction H as [|x l Hs IH Hf]; intros i j Hij; [cbn in Hij; lia|]. cbn in Hij.
  destruct i as [|i], j as [|j]; cbn; try lra; try lia.
  - rewrite Forall_forall in Hf. apply Hf, nth_In. lia.
  - apply IH. lia.
Qed.
Section Solved.
Variable solve : mat R -> list R * mat R.
Variable m : mat R.
Hypothesis Hm : solves solve m.
Let n := rows m.
Let U := reverse_columns (snd (solve m)).
Let occ (i : nat) := nth i (rev (fst (solve m))) 0.
Lemma U_dims : rows U = n /\ cols U = n.
Proof. destruct Hm as (_ & R & C & _). unfold U, reverse_columns. cbn. auto. Qed.
Lemma U_at : forall i j, at_ U i j = at_ (snd (solve m)) i (n - 1 - j).
Proof. destruct Hm as (_ & _ & C & _). intros. unfold U, reverse_columns. cbn [at_]. rewrite C. reflexivity. Qed.
Lemma occ_len : length (rev (fst (solve m))) = n.
Proof. rewrite rev_length. apply Hm. Qed.
Lemma U_cols : forall i j, (i < n)%nat -> (j < n)%nat -> rsum n (fun k => at_ U k i * at_ U k j) = if Nat.eqb i j then 1 else 0.
Proof.
  intros i j Hi Hj. destruct Hm as (_ & _ & _ & _ & H & _). rewrite <- (eqb_rev n i j Hi Hj).
  rewrite <- (H (n - 1 - i)%nat (n - 1 - j)%nat) by (fold n; lia). apply rsum_ext. intros k _. rewrite !U_at. reflexivity.
Qed.
Lemma U_rows : forall i j, (i < n)%nat -> (j < n)%nat -> rsum n (fun k => at_ U i k * at_ U j k) = if Nat.eqb i j then 1 else 0.
Proof.
  intros i j Hi Hj. destruct Hm as (_ & _ & _ & _ & _ & H & _). rewrite <- (H i j) by assumption. fold n.
  rewrite <- (rsum_rev n (fun k => at_ (snd (solve m)) i k * at_ (snd (solve m)) j k)). apply rsum_ext. intros k _. rewrite !U_at. reflexivity.
Qed.
Lemma U_eigen : forall i k, (i < n)%nat -> (k < n)%nat -> rsum n (fun j => mirrored m i j * at_ U j k) = at_ U i k * occ k.
Proof.
  intros i k Hi Hk. destruct Hm as (L & _ & _ & _ & _ & _ & H). rewrite U_at. unfold occ. rewrite nth_rev_vals by (rewrite L; exact Hk). rewrite L.
  change (rows m) with n. rewrite <- (H i (n - 1 - k)%nat) by (fold n; lia). apply rsum_ext. intros j _. rewrite U_at. reflexivity.
Qed.
Lemma U_diag : forall i k, (i < n)%nat -> (k < n)%nat ->
  rsum n (fun a => rsum n (fun b => at_ U a i * mirrored m a b * at_ U b k)) = if Nat.eqb i k then occ i else 0.
Proof.
  intros i k Hi Hk. transitivity (rsum n (fun a => (at_ U a i * at_ U a k) * occ k)).
  - apply rsum_ext. intros a Ha. transitivity (at_ U a i * rsum n (fun b => mirrored m a b * at_ U b k)); [|rewrite U_eigen by assumption; ring].
    unfold rsum. rewrite <- lsum_scale. apply lsum_ext. intros. ring.
  - unfold rsum. rewrite lsum_scale_r. fold (rsum n (fun a => at_ U a i * at_ U a k)). rewrite U_cols by assumption.
    destruct (Nat.eqb i k) eqn:E; [apply Nat.eqb_eq in E; subst; ring|ring].
Qed.
Lemma occ_down : forall i j, (i <= j < n)%nat -> occ j <= occ i.
Proof.
  intros i j Hij. destruct Hm as (L & _ & _ & S & _). unfold occ. rewrite !nth_rev_vals by (rewrite L; fold n; lia). apply sorted_nth; [exact S|]. rewrite L. fold n. lia.
Qed.
Lemma occ_trace : rsum n occ = rsum n (fun a => at_ m a a).
Proof.
  transitivity (rsum n (fun i => rsum n (fun a => rsum n (fun b => at_ U a i * mirrored m a b * at_ U b i)))).
  - apply rsum_ext. intros i Hi. rewrite U_diag by assumption. rewrite Nat.eqb_refl. reflexivity.
  - transitivity (rsum n (fun a => rsum n (fun b => mirrored m a b * rsum n (fun i => at_ U a i * at_ U b i)))).
    + unfold rsum. rewrite lsum_swap. apply lsum_ext. intros a _. rewrite lsum_swap. apply lsum_ext. intros b _. rewrite <- lsum_scale. apply lsum_ext. intros. ring.
    + apply rsum_ext. intros a Ha. unfold rsum. rewrite (lsum_one _ Nat.eq_dec _ a); [|apply seq_NoDup|apply in_seq; lia|].
      * fold (rsum n (fun i => at_ U a i * at_ U a i)). rewrite U_rows by assumption. rewrite Nat.eqb_refl. unfold mirrored. rewrite Nat.leb_refl. ring.
      * intros b Hb Hne. apply in_seq in Hb. fold (rsum n (fun i => at_ U a i * at_ U b i)). rewrite U_rows by lia.
        destruct (Nat.eqb a b) eqn:E; [apply Nat.eqb_eq in E; congruence|ring].
Qed.
End Solved.
