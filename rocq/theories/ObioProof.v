(** Proofs about one-body matrix element files. *)
From Coq Require Import List ZArith Reals Bool Ascii Lia Sorting.Sorted.
From Verif Require Import Base BaseLemmas RMat H2Model MapModel OscModel OscSpec BlockModel BlockSpec BlockProof ObioModel ObioSpec.
Import ListNotations.
Open Scope nat_scope.

(** * Spaces *)
Lemma lab_ltb_irrefl : forall a, lab_ltb a a = false.
Proof. intros a. unfold lab_ltb. rewrite !Z.ltb_irrefl, !Z.eqb_refl. reflexivity. Qed.
Lemma osp_code_inj : forall a b, osp_code a = osp_code b -> a = b.
Proof. intros [] []; cbn; intros; congruence. Qed.
Lemma lab_ltb_spec : forall a b, lab_ltb a b = true <->
  (osp_code (ll_sp a) < osp_code (ll_sp b) \/ osp_code (ll_sp a) = osp_code (ll_sp b)
    /\ (ll_l a < ll_l b \/ ll_l a = ll_l b /\ ll_2j a < ll_2j b))%Z.
Proof.
  intros a b. unfold lab_ltb. rewrite !orb_true_iff, !andb_true_iff, !orb_true_iff, !andb_true_iff, !Z.ltb_lt, !Z.eqb_eq. tauto.
Qed.
Lemma lab_ltb_trans : forall a b c, lab_ltb a b = true -> lab_ltb b c = true -> lab_ltb a c = true.
Proof. intros a b c. rewrite !lab_ltb_spec. lia. Qed.
Lemma lab_ltb_total : forall a b, lab_ltb a b = false -> lab_ltb b a = false -> a = b.
Proof.
  intros a b H1 H2. assert (N1 : ~ lab_ltb a b = true) by congruence. assert (N2 : ~ lab_ltb b a = true) by congruence.
  rewrite lab_ltb_spec in N1, N2. destruct a as [s l j], b as [s' l' j']. cbn in *.
  assert (s = s') by (apply osp_code_inj; lia). f_equal; [assumption| |]; lia.
Qed.
Definition lt_lab (a b : llabel) : Prop := lab_ltb a b = true.
Lemma insert_in : forall a l x, In x (lab_insert a l) <-> x = a \/ In x l.
Proof.
  intros a l x. induction l as [|b l IH]; cbn; [intuition congruence|].
  destruct (lab_ltb a b) eqn:E1; cbn; [intuition congruence|]. destruct (lab_ltb b a) eqn:E2; cbn; [rewrite IH; tauto|].
  rewrite (lab_ltb_total a b E1 E2). intuition congruence.
Qed.
Lemma insert_sorted : forall a l, StronglySorted lt_lab l -> StronglySorted lt_lab (lab_insert a l).
Proof.
  intros a l H. induction H as [|b l Hs IH Hf]; cbn; [repeat constructor|].
  destruct (lab_ltb a b) eqn:E1.
  - constructor; [constructor; assumption|]. constructor; [exact E1|]. eapply Forall_impl; [|exact Hf].
    intros c Hc. eapply lab_ltb_trans; eassumption.
  - destruct (lab_ltb b a) eqn:E2; [|constructor; assumption]. constructor; [exact IH|]. apply Forall_forall. intros c Hc.
    apply insert_in in Hc. destruct Hc as [->|Hc]; [exact E2|]. rewrite Forall_forall in Hf. auto.
Qed.
Lemma labels_sorted : forall l, StronglySorted lt_lab (fold_right lab_insert [] l).
Proof. intros l. induction l; cbn; [constructor|apply insert_sorted; assumption]. Qed.
Lemma labels_in : forall l x, In x (fold_right lab_insert [] l) <-> In x l.
Proof. intros l x. induction l as [|a l IH]; cbn; [tauto|]. rewrite insert_in, IH. intuition congruence. Qed.

(** what mk_wspace gives: sorted labels, no empty subspace *)
Lemma mk_wspace_labels : forall W (os : list (oinfo W)), StronglySorted lt_lab (map fst (mk_wspace os)).
Proof. intros W os. unfold mk_wspace. rewrite map_map. cbn. rewrite map_id. apply labels_sorted. Qed.
Lemma mk_wspace_nonempty : forall W (os : list (oinfo W)), Forall (fun x => snd x <> []) (mk_wspace os).
Proof.
  intros W os. apply Forall_forall. intros x Hx. unfold mk_wspace in Hx. apply in_map_iff in Hx. destruct Hx as (a & <- & Ha). cbn.
  apply (proj1 (labels_in _ _)) in Ha. apply in_map_iff in Ha. destruct Ha as (o & <- & Ho). unfold states_of.
  intros C. apply map_eq_nil in C. assert (In o (filter (fun o0 => llabel_eqb (oi_lab o0) (oi_lab o)) os))
    by (apply filter_In; split; [exact Ho|apply llabel_eqb_ok; reflexivity]). rewrite C in H. contradiction.
Qed.
Lemma insert_front : forall a l, Forall (lt_lab a) l -> lab_insert a l = a :: l.
Proof. intros a [|b l] H; [reflexivity|]. inversion H; subst. cbn. unfold lt_lab in *. rewrite H2. reflexivity. Qed.
Lemma insert_again : forall a l, lab_insert a (a :: l) = a :: l.
Proof. intros. cbn. rewrite lab_ltb_irrefl. reflexivity. Qed.
Lemma info_cons : forall W a st (s : wspace W), orbital_info ((a, st) :: s) = map (fun p => OI a (fst p) (snd p)) st ++ orbital_info s.
Proof. reflexivity. Qed.
Lemma info_labels : forall W (s : wspace W), StronglySorted lt_lab (map fst s) -> Forall (fun x => snd x <> []) s ->
  fold_right lab_insert [] (map oi_lab (orbital_info s)) = map fst s.
Proof.
  intros W s. induction s as [|[a st] s IH]; intros Hs Hne; [reflexivity|].
  inversion Hs as [|? ? Hs' Hf]; inversion Hne as [|? ? Hst Hne']; subst. rewrite info_cons, map_app, fold_right_app.
  rewrite IH by assumption. rewrite map_map. cbn. destruct st as [|p st]; [contradiction|].
  clear Hst Hs Hne IH. revert p. induction st as [|p' st IH]; intros p; cbn; [apply insert_front; exact Hf|].
  specialize (IH p'). cbn in IH. rewrite IH. apply insert_again.
Qed.
Lemma info_states : forall W (s : wspace W) a st, StronglySorted lt_lab (map fst s) -> In (a, st) s -> states_of a (orbital_info s) = st.
Proof.
  assert (Hother : forall W a b (st : list (Z * W)), a <> b -> filter (fun o => llabel_eqb (oi_lab o) b) (map (fun p => OI a (fst p) (snd p)) st) = []).
  { intros W a b st Hab. induction st as [|p st IH]; cbn; [reflexivity|]. destruct (llabel_eqb a b) eqn:E; [apply llabel_eqb_ok in E; contradiction|exact IH]. }
  intros W s a st. induction s as [|[b st'] s IH]; intros Hs Hin; [contradiction|].
  inversion Hs as [|? ? Hs' Hf]; subst. unfold states_of. rewrite info_cons, filter_app, map_app.
  destruct Hin as [E|Hin].
  - injection E as -> ->. assert (Hrest : filter (fun o => llabel_eqb (oi_lab o) a) (orbital_info s) = []).
    { clear IH. induction s as [|[c st'] s IH]; [reflexivity|]. cbn [map fst] in *. inversion Hs' as [|? ? Hs'' Hf']. inversion Hf; subst. rewrite info_cons.
      rewrite filter_app, Hother, IH; try assumption; [reflexivity|constructor; assumption|]. intros ->. unfold lt_lab in *. rewrite lab_ltb_irrefl in *. discriminate. }
    rewrite Hrest, app_nil_r. clear. induction st as [|[n w] st IH]; cbn; [reflexivity|]. rewrite (proj2 (llabel_eqb_ok a a) eq_refl). cbn. rewrite IH. reflexivity.
  - rewrite Hother; [cbn; apply IH; assumption|]. intros ->. rewrite Forall_forall in Hf. assert (Ha : In a (map fst s)) by (apply in_map_iff; exists (a, st); auto).
    apply Hf in Ha. unfold lt_lab in Ha. rewrite lab_ltb_irrefl in Ha. discriminate.
Qed.
Lemma mk_wspace_info : forall W (s : wspace W), StronglySorted lt_lab (map fst s) -> Forall (fun x => snd x <> []) s -> mk_wspace (orbital_info s) = s.
Proof.
  intros W s Hs Hne. unfold mk_wspace. rewrite info_labels by assumption. rewrite map_map.
  transitivity (map (fun x => x) s); [|apply map_id]. apply map_ext_in. intros [a st] Hin. cbn. rewrite (info_states W s a st) by assumption. reflexivity.
Qed.
Theorem space_from_info : forall W (os : list (oinfo W)), mk_wspace (orbital_info (mk_wspace os)) = mk_wspace os.
Proof. intros. apply mk_wspace_info; [apply mk_wspace_labels|apply mk_wspace_nonempty]. Qed.
Lemma forget_dim : forall W (os : list (oinfo W)) I, I < length (mk_wspace os) -> 0 < sub_dim (forget (mk_wspace os)) I.
Proof.
  intros W os I HI. unfold sub_dim, forget. rewrite nth_error_map. destruct (nth_error (mk_wspace os) I) as [[a st]|] eqn:E.
  - cbn. rewrite map_length. pose proof (mk_wspace_nonempty W os) as H. rewrite Forall_forall in H. apply nth_error_In in E. apply H in E. cbn in E.
    destruct st; [contradiction|cbn; lia].
  - apply nth_error_None in E. lia.
Qed.
Lemma mk_lsectors_in : forall al b k J0 g0 Tz0 I J, In (I, J) (mk_lsectors al b k J0 g0 Tz0) ->
  I < length b /\ J < length k.
Proof.
  intros al b k J0 g0 Tz0 I J H. unfold mk_lsectors in H. apply filter_In in H. destruct H as [H _]. apply in_prod_iff in H.
  rewrite !in_seq in H. lia.
Qed.
Lemma mk_lsectors_nodup : forall al b k J0 g0 Tz0, NoDup (mk_lsectors al b k J0 g0 Tz0).
Proof. intros. unfold mk_lsectors. apply NoDup_filter, NoDup_list_prod; apply seq_NoDup. Qed.

(** * Reading lines that were written *)
Section Obme.
Variable E : oenv.
Notation D := (oD E).
Notation line := (list (tok (oT E))).

Lemma next_blank : forall old r, next_line (T := oT E) old ([] :: r) true = next_line [] r true.
Proof. intros old r. cbn. rewrite andb_false_r. reflexivity. Qed.
Lemma next_line_text : forall old l r, l <> [] -> next_line (T := oT E) old (l :: r) true = (l, open_text r true).
Proof. intros old l r H. destruct l; [contradiction|]. cbn. rewrite andb_false_r. reflexivity. Qed.
Lemma next_old : forall old old' r, next_line (T := oT E) old r true = next_line old' r true.
Proof. intros old old' [|l r]; reflexivity. Qed.
Lemma get_open : forall old r, get_line (T := oT E) old (open_text r true) = next_line [] r true.
Proof. intros. unfold get_line, open_text. cbn [st_fail st_eof st_rest st_nl orb]. apply next_old. Qed.
Lemma get_blanks : forall n old r, get_line (T := oT E) old (open_text (repeat [] n ++ r) true) = get_line [] (open_text r true).
Proof.
  induction n; intros old r; cbn [repeat app]; [rewrite !get_open; reflexivity|]. rewrite get_open, next_blank. rewrite <- (get_open []). apply IHn.
Qed.
Lemma get_text : forall n old l r, l <> [] -> get_line (T := oT E) old (open_text (repeat [] n ++ l :: r) true) = (l, open_text r true).
Proof. intros. rewrite get_blanks, get_open. apply next_line_text. assumption. Qed.

(** a batch of non-blank lines after some blank ones *)
Lemma read_lines_text : forall ls n old r, Forall (fun l => l <> []) ls -> ls <> [] ->
  exists old', read_lines E (length ls) old (open_text (repeat [] n ++ ls ++ r) true) = (ls, (old', open_text r true)).
Proof.
  induction ls as [|l ls IH]; intros n old r Hf Hne; [contradiction|]. inversion Hf; subst. cbn [length read_lines app].
  rewrite get_text by assumption. destruct ls as [|l' ls].
  - cbn [read_lines length app]. eauto.
  - destruct (IH 0 l r) as [old' E']; [assumption|discriminate|]. cbn [repeat app] in E'. cbn [app]. rewrite E'. eauto.
Qed.
Lemma read_lines_text' : forall ls n old r, Forall (fun l => l <> []) ls ->
  exists old' n', read_lines E (length ls) old (open_text (repeat [] n ++ ls ++ r) true) = (ls, (old', open_text (repeat [] n' ++ r) true))
  /\ (ls <> [] -> n' = 0).
Proof.
  intros [|l ls] n old r Hf.
  - exists old, n. split; [reflexivity|contradiction].
  - destruct (read_lines_text (l :: ls) n old r Hf) as [old' E']; [discriminate|]. exists old', 0. split; [exact E'|auto].
Qed.

Lemma scan_int_ok : forall z l, in_i32 z = true -> scan_i (T := oT E) (TInt z :: l) = Ok (z, l).
Proof. intros z l H. unfold scan_i. rewrite H. reflexivity. Qed.
Lemma scan_size_ok : forall z l, (0 <= z < two31)%Z -> scan_u (T := oT E) (TInt z :: l) = Ok (z, l).
Proof. intros z l H. unfold scan_u. assert (in_u64 z = true) by (apply in_u64_iff; unfold two31, two64 in *; lia). rewrite H0. reflexivity. Qed.

Definition blanks (verbose : bool) : list line := if verbose then [[]] else [].
Lemma blanks_repeat : forall v, blanks v = repeat [] (if v then 1 else 0).
Proof. intros []; reflexivity. Qed.
Lemma repeat_app' : forall n m (r : list line), repeat [] n ++ repeat [] m ++ r = repeat [] (n + m) ++ r.
Proof. intros. rewrite app_assoc, <- repeat_app. reflexivity. Qed.

Lemma read_header_ok : forall verbose o h r, obme_ok E o -> write_header E verbose o = Ok h ->
  exists n, read_header E (open_text (h ++ r) true) = Ok (o, open_text (repeat [] n ++ r) true).
Proof.
  intros verbose o h r H Hw. destruct o as [ty J0 g0 Tz0 B K ss]. destruct H as [[os Hb] [os' Hk] Hss [c Hty] HJ Hg HT Hnb Hnk (Pb & Lb & Fb) (Pk & Lk & Fk)].
  cbn [ob_type ob_J0 ob_g0 ob_Tz0 ob_bra ob_ket ob_sectors] in *. subst ty. unfold write_header in Hw. cbn [get bind ob_type ob_J0 ob_g0 ob_Tz0 ob_bra ob_ket] in Hw.
  injection Hw as <-. fold (blanks verbose).
  set (bl := o_orb_lines E (orbital_info B)) in *. set (kl := o_orb_lines E (orbital_info K)) in *.
  unfold read_header.
  match goal with |- context [open_text ?l true] => replace l with
    (repeat [] 5 ++ [TInt 2] :: [TChr c; TInt J0; TInt g0; TInt Tz0] :: [TInt (Z.of_nat (length (orbital_info B))); TInt (Z.of_nat (length (orbital_info K)))]
     :: repeat [] (1 + (if verbose then 1 else 0)) ++ bl ++ repeat [] (1 + (if verbose then 1 else 0)) ++ kl ++ repeat [] 1 ++ r) end.
  2:{ rewrite blanks_repeat. cbn [repeat app]. do 9 f_equal. rewrite <- !app_assoc. cbn [app]. destruct verbose; cbn [repeat app Nat.add]; rewrite <- ?app_assoc; reflexivity. }
  rewrite get_text by discriminate.
  rewrite scan_int_ok by reflexivity. cbn [bind]. change (2 =? 0)%Z with false. change (2 =? 1)%Z with false. change (2 =? 2)%Z with true. cbn iota.
  match goal with |- context [open_text (?a :: ?x) true] => change (a :: x) with (repeat [] 0 ++ a :: x) end.
  rewrite get_text by discriminate. cbn [scan_c bind]. rewrite !scan_int_ok by assumption. cbn [bind]. rewrite scan_int_ok by assumption. cbn [bind]. rewrite scan_int_ok by assumption. cbn [bind].
  match goal with |- context [open_text (?a :: ?x) true] => change (a :: x) with (repeat [] 0 ++ a :: x) end.
  rewrite get_text by discriminate. rewrite scan_size_ok by lia. cbn [bind]. rewrite scan_size_ok by lia. cbn [bind]. rewrite !Nat2Z.id.
  rewrite <- Lb. destruct (read_lines_text' bl (1 + (if verbose then 1 else 0)) [TInt (Z.of_nat (length bl)); TInt (Z.of_nat (length (orbital_info K)))]
     (repeat [] (1 + (if verbose then 1 else 0)) ++ kl ++ repeat [] 1 ++ r) Fb) as (old' & n' & E1 & _).
  rewrite E1. unfold parse_orbitals at 1. change (2 =? 2)%Z with true. cbn iota. rewrite Pb. cbn [bind].
  rewrite repeat_app'. rewrite <- Lk. destruct (read_lines_text' kl (n' + (1 + (if verbose then 1 else 0))) old' (repeat [] 1 ++ r) Fk) as (old'' & n'' & E2 & _).
  rewrite E2. unfold parse_orbitals. change (2 =? 2)%Z with true. cbn iota. rewrite Pk. cbn [bind].
  rewrite Hb, Hk, !space_from_info. rewrite <- Hb, <- Hk, <- Hss. rewrite repeat_app'. eauto.
Qed.

Lemma scan_row_ok : forall (m : mat D) i js, (forall j, In j js -> prints_as_number E (at_ m i j)) ->
  scan_row E (length js) (map (fun j => TNum (o_fmt E (o_chop E (at_ m i j)))) js) = Ok (map (fun j => printed E (at_ m i j)) js).
Proof.
  intros m i js H. induction js as [|j js IH]; [reflexivity|]. cbn [length map scan_row]. unfold printed at 1.
  destruct (H j (or_introl eq_refl)) as [y Ey]. rewrite Ey. rewrite IH by (intros; apply H; right; assumption). reflexivity.
Qed.
Lemma row_nonblank : forall (m : mat D) i, 0 < cols m -> row_line E m i <> [].
Proof. intros m i H C. unfold row_line in C. apply map_eq_nil in C. destruct (cols m); [lia|discriminate]. Qed.
Lemma read_rows_ok : forall (m : mat D) is n old r, 0 < cols m -> block_prints E m -> (forall i, In i is -> i < rows m) ->
  exists n', read_rows E (length is) (cols m) old (open_text (repeat [] n ++ map (row_line E m) is ++ r) true)
    = Ok (map (fun i => map (fun j => printed E (at_ m i j)) (seq 0 (cols m))) is, open_text (repeat [] n' ++ r) true).
Proof.
  intros m is. induction is as [|i is IH]; intros n old r Hc Hp Hi; [cbn; eauto|]. cbn [length map app read_rows].
  rewrite get_text by (apply row_nonblank; exact Hc). 
  assert (Es : scan_row E (cols m) (row_line E m i) = Ok (map (fun j => printed E (at_ m i j)) (seq 0 (cols m)))).
  { unfold row_line. pose proof (scan_row_ok m i (seq 0 (cols m))) as Hs. rewrite seq_length in Hs. apply Hs.
    intros j Hj. apply in_seq in Hj. apply Hp; [apply Hi; left; reflexivity|lia]. }
  rewrite Es. cbn [bind]. destruct (IH 0 (row_line E m i) r Hc Hp) as [n' E']; [intros; apply Hi; right; assumption|]. cbn [repeat app] in E'.
  rewrite E'. cbn [bind]. eauto.
Qed.
Lemma read_sector_ok : forall d o si x (m : mat D) verbose n r, nth_error (ob_sectors E o) si = Some x -> block_fits E o x m -> block_prints E m -> 0 < rows m -> 0 < cols m ->
  exists m' n', write_sector E verbose o si m = Ok ((if verbose then [[]; []] else []) ++ format_matrix E m ++ [[]])
   /\ read_sector E d o si (open_text (repeat [] n ++ ((if verbose then [[]; []] else []) ++ format_matrix E m ++ [[]]) ++ r) true) = Ok (m', open_text (repeat [] n' ++ r) true)
   /\ printed_block E m m'.
Proof.
  intros d o si x m verbose n r Hx [Hr Hc] Hp Hr0 Hc0. unfold write_sector, read_sector. rewrite Hx. cbn [get bind]. rewrite <- Hr, <- Hc, !Nat.eqb_refl. cbn [cassert bind].
  assert (Hf : format_matrix E m = map (row_line E m) (seq 0 (rows m))) by (unfold format_matrix; destruct (rows m); [lia|reflexivity]). rewrite Hf.
  set (v := if verbose then 2 else 0).
  replace ((if verbose then [[]; []] else []) ++ map (row_line E m) (seq 0 (rows m)) ++ [[]]) with (repeat ([] : line) v ++ map (row_line E m) (seq 0 (rows m)) ++ [[]]) by (unfold v; destruct verbose; reflexivity).
  destruct (read_rows_ok m (seq 0 (rows m)) (n + v) [] ([[]] ++ r) Hc0 Hp) as [n' E']; [intros i Hi; apply in_seq in Hi; lia|].
  rewrite seq_length in E'. replace (repeat [] n ++ (repeat [] v ++ map (row_line E m) (seq 0 (rows m)) ++ [[]]) ++ r) with
    (repeat [] (n + v) ++ map (row_line E m) (seq 0 (rows m)) ++ [[]] ++ r) by (rewrite <- repeat_app', <- !app_assoc; reflexivity).
  rewrite E'. cbn [bind]. exists (of_rows E d (rows m) (cols m) (map (fun i => map (fun j => printed E (at_ m i j)) (seq 0 (cols m))) (seq 0 (rows m)))), (n' + 1).
  split; [reflexivity|]. split; [rewrite <- repeat_app'; reflexivity|]. split; [reflexivity|]. split; [reflexivity|]. intros i j Hi Hj. cbn [of_rows at_].
  rewrite (nth_indep _ [] (map (fun j => printed E (at_ m 0 j)) (seq 0 (cols m)))) by (rewrite map_length, seq_length; exact Hi).
  rewrite (map_nth (fun i => map (fun j => printed E (at_ m i j)) (seq 0 (cols m)))). rewrite seq_nth by exact Hi. cbn [Nat.add].
  rewrite (nth_indep _ d (printed E (at_ m i 0))) by (rewrite map_length, seq_length; exact Hj).
  rewrite (map_nth (fun j => printed E (at_ m i j))). rewrite seq_nth by exact Hj. reflexivity.
Qed.

Lemma read_sectors_ok : forall d o verbose ms si n, Forall2 (block_fits E o) (skipn si (ob_sectors E o)) ms -> Forall (block_prints E) ms ->
  Forall (fun m => 0 < rows m /\ 0 < cols m) ms ->
  exists b ms' n', write_sectors E verbose o si ms = Ok b /\ Forall2 (printed_block E) ms ms'
    /\ read_sectors E d o si (length ms) (open_text (repeat [] n ++ b) true) = Ok (ms', open_text (repeat [] n') true).
Proof.
  intros d o verbose ms. induction ms as [|m ms IH]; intros si n Hf Hp Hd.
  - exists [], [], n. cbn. rewrite app_nil_r. repeat split. constructor.
  - inversion Hf as [|x ? xs ? Hx Hxs Esk]. subst. inversion Hp as [|? ? Hpm Hpms]; inversion Hd as [|? ? [Hr Hc] Hds]; subst.
    assert (Hnth : nth_error (ob_sectors E o) si = Some x).
    { revert Esk. generalize (ob_sectors E o) as l. clear. induction si; intros [|y l] H; cbn in *; try discriminate; [injection H as -> _; reflexivity|apply IHsi; symmetry; congruence]. }
    assert (Hsk : skipn (S si) (ob_sectors E o) = xs).
    { revert Esk. generalize (ob_sectors E o) as l. clear. induction si; intros [|y l] H; cbn in *; try discriminate; [injection H as _ ->; reflexivity|apply IHsi; congruence]. }
    cbn [write_sectors read_sectors length].
    destruct (read_sector_ok d o si x m verbose n [] Hnth Hx Hpm Hr Hc) as (m1 & n1 & Ew & _ & _). rewrite Ew. cbn [bind].
    set (lw := (if verbose then [[]; []] else []) ++ format_matrix E m ++ [[]]) in *.
    destruct (IH (S si) 0) as (b & _ & _ & Eb & _ & _); [rewrite Hsk; exact Hxs|assumption|assumption|]. rewrite Eb. cbn [bind].
    exists (lw ++ b). destruct (read_sector_ok d o si x m verbose n b Hnth Hx Hpm Hr Hc) as (m' & n' & _ & Er & Hm'). fold lw in Er.
    destruct (IH (S si) n') as (b' & ms' & n'' & Eb' & Hms & Er'); [rewrite Hsk; exact Hxs|assumption|assumption|].
    rewrite Eb in Eb'. injection Eb' as <-. exists (m' :: ms'), n''. rewrite Er. cbn [bind]. rewrite Er'. cbn [bind]. split; [reflexivity|]. split; [constructor; assumption|reflexivity].
Qed.

Lemma header_written : forall verbose o, obme_ok E o -> exists h, write_header E verbose o = Ok h.
Proof. intros verbose o H. destruct (bo_type E o H) as [c Hc]. unfold write_header. rewrite Hc. cbn. eauto. Qed.

Lemma fits_dims : forall o ms, obme_ok E o -> Forall2 (block_fits E o) (ob_sectors E o) ms -> Forall (fun m => 0 < rows m /\ 0 < cols m) ms.
Proof.
  intros o ms Ho H. assert (Hs : forall x, In x (ob_sectors E o) -> fst x < length (forget (ob_bra E o)) /\ snd x < length (forget (ob_ket E o))).
  { intros [I J] Hin. rewrite (bo_sectors E o Ho) in Hin. apply mk_lsectors_in in Hin. exact Hin. }
  destruct (bo_bra E o Ho) as [os Hb]. destruct (bo_ket E o Ho) as [os' Hk].
  induction H as [|x m xs ms [Hr Hc] Hxs IH]; [constructor|]. constructor; [|apply IH; intros; apply Hs; right; assumption].
  destruct (Hs x (or_introl eq_refl)) as [H1 H2]. rewrite Hr, Hc, Hb, Hk in *. unfold forget in H1, H2. rewrite map_length in H1, H2.
  split; apply forget_dim; assumption.
Qed.

Theorem round_trip : forall d verbose o ms, obme_ok E o -> Forall2 (block_fits E o) (ob_sectors E o) ms -> Forall (block_prints E) ms ->
  exists lines ms', write_file E verbose o ms = Ok lines /\ read_file E d lines true = Ok (o, ms') /\ Forall2 (printed_block E) ms ms'.
Proof.
  intros d verbose o ms Ho Hf Hp. destruct (header_written verbose o Ho) as [h Eh]. unfold write_file. rewrite Eh. cbn [bind].
  pose proof (Forall2_len _ _ _ _ _ Hf) as Hlen. rewrite Hlen, Nat.eqb_refl. cbn [cassert bind].
  pose proof (fits_dims o ms Ho Hf) as Hd.
  destruct (read_sectors_ok d o verbose ms 0 0 Hf Hp Hd) as (b & _ & _ & Eb & _ & _). rewrite Eb. cbn [bind].
  destruct (read_header_ok verbose o h b Ho Eh) as [n En].
  destruct (read_sectors_ok d o verbose ms 0 n Hf Hp Hd) as (b' & ms' & n' & Eb' & Hms & Er). rewrite Eb in Eb'. injection Eb' as <-.
  exists (h ++ b), ms'. split; [reflexivity|]. split; [|exact Hms]. unfold read_file. rewrite En. cbn [bind]. rewrite Hlen, Er. reflexivity.
Qed.

(** wrong number of blocks or wrong dimensions *)
Theorem write_wrong : forall verbose o ms, (exists c, ob_type E o = Some c) -> ~ Forall2 (block_fits E o) (ob_sectors E o) ms -> write_file E verbose o ms = AssertFail.
Proof.
  intros verbose o ms [c Hc] Hn. unfold write_file, write_header. rewrite Hc. cbn [get bind].
  destruct (Nat.eqb_spec (length ms) (length (ob_sectors E o))) as [Hlen|]; [|reflexivity]. cbn [cassert bind].
  assert (G : forall ms si, length ms = length (skipn si (ob_sectors E o)) -> ~ Forall2 (block_fits E o) (skipn si (ob_sectors E o)) ms -> write_sectors E verbose o si ms = AssertFail).
  { clear ms Hn Hlen. intros ms. induction ms as [|m ms IH]; intros si Hl Hn.
    - destruct (skipn si (ob_sectors E o)); [elim Hn; constructor|discriminate].
    - destruct (skipn si (ob_sectors E o)) as [|x xs] eqn:Es; [discriminate|].
      assert (Hnth : nth_error (ob_sectors E o) si = Some x).
      { revert Es. generalize (ob_sectors E o) as l. clear. induction si; intros [|y l] H; cbn in *; try discriminate; [injection H as -> _; reflexivity|apply IHsi; exact H]. }
      assert (Hsk : skipn (S si) (ob_sectors E o) = xs).
      { revert Es. generalize (ob_sectors E o) as l. clear. induction si; intros [|y l] H; cbn in *; try discriminate; [injection H as _ ->; reflexivity|apply IHsi; congruence]. }
      cbn [write_sectors]. unfold write_sector. rewrite Hnth. cbn [get bind].
      destruct (Nat.eqb_spec (sub_dim (forget (ob_bra E o)) (fst x)) (rows m)) as [Hr|]; [|reflexivity]. cbn [cassert bind].
      destruct (Nat.eqb_spec (sub_dim (forget (ob_ket E o)) (snd x)) (cols m)) as [Hcc|]; [|reflexivity]. cbn [cassert bind].
      rewrite IH; [reflexivity|rewrite Hsk; cbn in Hl; lia|]. rewrite Hsk. intros HF. apply Hn. constructor; [split; congruence|exact HF]. }
  rewrite G; [reflexivity|exact Hlen|exact Hn].
Qed.

(** * Missing lines *)
Definition left_ (s : stream (oT E)) : nat := text_lines (st_rest s).
Lemma next_left : forall old r l s, next_line old r true = (l, s) -> st_nl s = true /\
  ((l = [] /\ st_fail s = true) \/ (l <> [] /\ st_fail s = false /\ st_eof s = false /\ S (left_ s) = text_lines r)).
Proof.
  intros old r. revert old. induction r as [|x r IH]; intros old l s H; cbn in H.
  - injection H as <- <-. cbn. auto.
  - rewrite andb_false_r in H. destruct x as [|w x]; cbn in H.
    + apply IH in H. destruct H as [Hn H]. split; [exact Hn|]. unfold text_lines. cbn. exact H.
    + injection H as <- <-. cbn. split; [reflexivity|]. right. repeat split. discriminate.
Qed.
Definition good_st (s : stream (oT E)) : Prop := st_nl s = true /\ st_fail s = false /\ st_eof s = false.
Lemma read_rows_left : forall r c old s xs s', 0 < c -> good_st s -> read_rows E r c old s = Ok (xs, s') ->
  good_st s' /\ r + left_ s' = left_ s.
Proof.
  induction r as [|r IH]; intros c old s xs s' Hc (Hn & Hf & He) H; cbn [read_rows] in H.
  - injection H as _ <-. unfold good_st. auto.
  - unfold get_line in H. rewrite Hf, He, Hn in H. cbn [orb] in H. destruct (next_line old (st_rest s) true) as [l s1] eqn:En.
    destruct (next_left _ _ _ _ En) as [Hn1 [[-> Hf1]|(Hl & Hf1 & He1 & Hleft)]].
    + destruct c; [lia|]. cbn in H. discriminate.
    + destruct (scan_row E c l); cbn [bind] in H; try discriminate. destruct (read_rows E r c l s1) as [[ys s2]| | |] eqn:Er; cbn [bind] in H; try discriminate.
      injection H as _ <-. destruct (IH c l s1 ys s2 Hc) as [G1 G2]; [unfold good_st; auto|exact Er|]. split; [exact G1|]. unfold left_ in *. lia.
Qed.
(** number of rows of the sectors from [si] *)
Definition total_rows (o : obme E) (xs : lsectors) : nat := list_sum (map (fun x => sub_dim (forget (ob_bra E o)) (fst x)) xs).
Lemma read_sectors_left : forall d o n si s ms s', obme_ok E o -> good_st s -> read_sectors E d o si n s = Ok (ms, s') ->
  good_st s' /\ total_rows o (firstn n (skipn si (ob_sectors E o))) + left_ s' = left_ s.
Proof.
  intros d o n. induction n as [|n IH]; intros si s ms s' Ho Hg H; cbn [read_sectors] in H.
  - injection H as _ <-. auto.
  - unfold read_sector in H. destruct (nth_error (ob_sectors E o) si) as [x|] eqn:Ex; [|discriminate]. cbn [get bind] in H.
    destruct (read_rows E _ _ [] s) as [[xs s1]| | |] eqn:Er; cbn [bind] in H; try discriminate.
    destruct (read_sectors E d o (S si) n s1) as [[ms1 s2]| | |] eqn:Er2; cbn [bind] in H; try discriminate. injection H as _ <-.
    assert (Hx : snd x < length (forget (ob_ket E o))).
    { apply nth_error_In in Ex. rewrite (bo_sectors E o Ho) in Ex. destruct x as [I J]. apply mk_lsectors_in in Ex. cbn. lia. }
    assert (Hc : 0 < sub_dim (forget (ob_ket E o)) (snd x)).
    { destruct (bo_ket E o Ho) as [os Hk]. rewrite Hk in *. apply forget_dim. unfold forget in Hx. rewrite map_length in Hx. exact Hx. }
    destruct (read_rows_left _ _ _ _ _ _ Hc Hg Er) as [G1 G2].
    destruct (IH _ _ _ _ Ho G1 Er2) as [G3 G4]. split; [exact G3|].
    assert (Esk : skipn si (ob_sectors E o) = x :: skipn (S si) (ob_sectors E o)).
    { revert Ex. generalize (ob_sectors E o) as l. clear. induction si; intros [|y l] H; cbn in *; try discriminate; [congruence|]. rewrite IHsi by exact H. reflexivity. }
    rewrite Esk. cbn [firstn]. unfold total_rows in *. cbn [map]. match goal with |- list_sum (?a :: ?b) + _ = _ => change (list_sum (a :: b)) with (a + list_sum b) end. lia.
Qed.
Theorem missing_lines : forall d verbose o h body, obme_ok E o -> write_header E verbose o = Ok h ->
  text_lines body < total_rows o (ob_sectors E o) -> ~ is_ok (read_file E d (h ++ body) true).
Proof.
  intros d verbose o h body Ho Eh Hlt [[o' ms] H]. unfold read_file in H. destruct (read_header_ok verbose o h body Ho Eh) as [n En]. rewrite En in H. cbn [bind] in H.
  destruct (read_sectors E d o 0 (length (ob_sectors E o)) (open_text (repeat [] n ++ body) true)) as [[ms' s']| | |] eqn:Er; cbn [bind] in H; try discriminate.
  apply read_sectors_left in Er; [|exact Ho|unfold good_st; auto]. destruct Er as [_ Hl]. cbn [skipn] in Hl. rewrite firstn_all in Hl.
  assert (left_ (open_text (repeat [] n ++ body) true) = text_lines body).
  { unfold left_, text_lines. cbn [open_text st_rest]. rewrite filter_app, app_length. replace (filter _ (repeat [] n)) with (@nil line); [reflexivity|].
    clear. induction n; cbn; [reflexivity|exact IHn]. }
  lia.
Qed.
End Obme.
