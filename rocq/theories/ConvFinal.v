(** Proofs for C46 (order of sectors) and C73. *)
From Coq Require Import String List ZArith Lia Bool Permutation.
From Verif Require Import Base BaseLemmas H2Model H2Spec MapModel ConvModel ConvSpec ConvProof H2RoundBin ExEnv ExH2.
Import ListNotations.
Open Scope string_scope.
Open Scope list_scope.
Open Scope nat_scope.

Lemma upper_app : forall rule a b, (forall x y, In x a -> In y b -> rule x y = false) -> upper_ends rule (a ++ b) = upper_ends rule a ++ upper_ends rule b.
Proof.
  intros rule a. induction a as [|x a IH]; intros b H; [reflexivity|]. cbn [app upper_ends].
  rewrite IH by (intros; apply H; [right|]; assumption).
  assert (F : filter (rule x) (x :: a ++ b) = filter (rule x) (x :: a)).
  { change (x :: a ++ b) with ((x :: a) ++ b). rewrite filter_app.
    assert (Z0 : filter (rule x) b = []).
    { assert (G : forall l, (forall y, In y l -> rule x y = false) -> filter (rule x) l = []).
      { induction l as [|y l IHl]; intros Hl; [reflexivity|]. cbn [filter]. rewrite (Hl y (or_introl eq_refl)). apply IHl. intros; apply Hl; right; assumption. }
      apply G. intros y Hy. apply H; [left; reflexivity|exact Hy]. }
    rewrite Z0, app_nil_r. reflexivity. }
  rewrite F, app_assoc. reflexivity.
Qed.
Lemma library_reordered : forall E ix f, ix_Tz0 E ix = 0%Z -> ix_space E ix = mk_space E (ix_ord E ix) (ix_p E ix) (ix_n E ix) (ix_w E ix) ->
  ix_sectors E ix = mk_sectors E (ix_space E ix) (ix_J0 E ix) (ix_g0 E ix) (ix_Tz0 E ix) ->
  library_order E (ix_p E ix) (ix_n E ix) (ix_w E ix) (ix_J0 E ix) (ix_g0 E ix) -> reordered E ix (conv_indexing E ix f).
Proof.
  intros E ix f HT Hsp Hse (pp & nn & pn & rule & Fp & Fn & Fm & Sk & St & Hr & Hs). unfold reordered, conv_indexing. cbn [ix_sectors].
  rewrite Hse, Hsp, HT, !Hs. rewrite Forall_forall in Fp, Fn, Fm.
  assert (U1 : upper_ends rule (pp ++ nn ++ pn) = upper_ends rule pp ++ upper_ends rule nn ++ upper_ends rule pn).
  { rewrite !upper_app; [reflexivity| |]; intros x y Hx Hy; apply Hr.
    - rewrite (Fn x Hx), (Fm y Hy). discriminate.
    - rewrite in_app_iff in Hy. rewrite (Fp x Hx). destruct Hy as [Hy|Hy]; [rewrite (Fn y Hy)|rewrite (Fm y Hy)]; discriminate. }
  assert (U2 : upper_ends rule (pp ++ pn ++ nn) = upper_ends rule pp ++ upper_ends rule pn ++ upper_ends rule nn).
  { rewrite !upper_app; [reflexivity| |]; intros x y Hx Hy; apply Hr.
    - rewrite (Fn y Hy), (Fm x Hx). discriminate.
    - rewrite in_app_iff in Hy. rewrite (Fp x Hx). destruct Hy as [Hy|Hy]; [rewrite (Fm y Hy)|rewrite (Fn y Hy)]; discriminate. }
  assert (G : forall o o', Permutation (upper_ends rule (mk_space E o (ix_p E ix) (ix_n E ix) (ix_w E ix))) (upper_ends rule (mk_space E o' (ix_p E ix) (ix_n E ix) (ix_w E ix)))).
  { intros [] []; rewrite ?Sk, ?St; try apply Permutation_refl; rewrite U1, U2; apply Permutation_app_head, Permutation_app_comm. }
  apply G.
Qed.

(** the conversion stops at a sector that the input does not have *)
Lemma loop_stops : forall E name data file st ms out si h ost,
  holds E name data file st ms -> (exists s', nth_error (ix_sectors E out) si = Some s' /\ input_sector E (any_ix E st) s' = None) ->
  conv_loop E out (si :: h) st ost = AssertFail.
Proof. intros E name data file st ms out si h ost _ (s' & Hs & Hi). cbn [conv_loop]. rewrite Hs. cbn [get bind]. rewrite Hi. reflexivity. Qed.

(** * examples *)
Lemma label_dec : forall x y : species * Z * Z, {x = y} + {x <> y}.
Proof. repeat decide equality. Defined.
Lemma ends_dec : forall x y : nat * nat, {x = y} + {x <> y}.
Proof. decide equality; apply Nat.eq_dec. Defined.
Lemma nodup_check : forall A (dec : forall x y : A, {x = y} + {x <> y}) l, nodup dec l = l -> NoDup l.
Proof. intros A dec l H. rewrite <- H. apply NoDup_nodup. Qed.
Lemma ex_sector_ends : forall space J0 g0 Tz0, Forall (fun s => nth_error space (s_bi s) = Some (s_bra s) /\ nth_error space (s_ki s) = Some (s_ket s)) (ex_sectors space J0 g0 Tz0).
Proof.
  intros space J0 g0 Tz0. apply Forall_forall. intros s Hs. unfold ex_sectors in Hs.
  apply in_flat_map in Hs. destruct Hs as ([i a] & Ha & Hs). apply in_flat_map in Hs. destruct Hs as ([j b] & Hb & Hs).
  apply in_indexed in Ha, Hb. match type of Hs with In _ (if ?c then _ else _) => destruct c end; [|destruct Hs].
  destruct Hs as [<-|[]]. cbn [s_bi s_ki s_bra s_ket]. auto.
Qed.

Lemma ex_library : forall ix, ix_sectors ex_env ix = ex_sectors (ix_space ex_env ix) (ix_J0 ex_env ix) (ix_g0 ex_env ix) (ix_Tz0 ex_env ix) ->
  nodup label_dec (map sub_labels (ix_space ex_env ix)) = map sub_labels (ix_space ex_env ix) ->
  nodup ends_dec (map (fun s => (s_bi s, s_ki s)) (ix_sectors ex_env ix)) = map (fun s => (s_bi s, s_ki s)) (ix_sectors ex_env ix) ->
  library_indexing ex_env ix.
Proof.
  intros ix Hs H1 H2. constructor.
  - exact (nodup_check _ _ _ H1).
  - rewrite Hs. apply ex_sector_ends.
  - exact (nodup_check _ _ _ H2).
  - rewrite Hs. apply ex_sectors_canonical.
Qed.
Lemma lib0 : library_indexing ex_env ix0. Proof. apply ex_library; vm_compute; reflexivity. Qed.
Lemma lib0p : library_indexing ex_env ix0p. Proof. apply ex_library; vm_compute; reflexivity. Qed.
Lemma conv0 : conv_indexing ex_env ix0p V15200 = ix0. Proof. reflexivity. Qed.
Lemma ex_exact : exact_singles ex_env.
Proof.
  intros x. cbn [widen narrow dmul d1 ex_env]. rewrite Z.mul_1_l. unfold i32.
  pose proof (Z.mod_pos_bound (x + two31) two32 eq_refl). unfold two31, two32 in *.
  rewrite <- Zplus_mod_idemp_l, Zmod_mod, Zplus_mod_idemp_l.
  replace ((x + 2147483648) mod 4294967296 - 2147483648 + 2147483648)%Z with ((x + 2147483648) mod 4294967296)%Z by lia.
  rewrite Zmod_mod. reflexivity.
Qed.

(** a file written by the library, whole *)
Lemma written_holds : forall E f ix ws name file, env_ok E -> indexing_ok E ix -> scheme E f ix -> record_fits E f ix ->
  Forall2 (fits_sector E) (ix_sectors E ix) ws -> deduced_io_mode name = Ok KBinary -> f_nl E file = true ->
  exists data st ms, write_file_bin E f ix (whole_operator E ws) = Ok data /\ holds E name data file (inl st) ms /\ is_ix E bstate st = ix
  /\ open_bin E data = Ok st.
Proof.
  intros E f ix ws name file He Hi Hs Hr Hf Hn Hnl. destruct (binary_round_trip E He f ix ws Hi Hs Hr Hf) as (data & Hw & st & Ho & Hfm & Hix & Hh).
  destruct (Hh (seq 0 (length (ix_sectors E ix)))) as (ms & st' & Hr' & _).
  { apply Forall_forall. intros i H. apply in_seq in H. lia. }
  exists data, st, ms. split; [exact Hw|]. split; [|auto]. split; [|split; [exact Hnl|]].
  - unfold open_file. rewrite Hn. cbn [bind]. rewrite Ho. reflexivity.
  - rewrite reads_any_bin. cbn [any_ix]. rewrite Hix, Hr'. reflexivity.
Qed.

Definition ex_rule (J0 g0 : Z) (a b : subspace) : bool :=
  ((Z.abs (ss_J a - ss_J b) <=? J0) && (J0 <=? ss_J a + ss_J b) && ((ss_g a + ss_g b + g0) mod 2 =? 0)
   && (Z.abs (tz_of (ss_species a) - tz_of (ss_species b)) =? 0))%Z%bool.
Lemma ex_library_order : forall p n w J0 g0,
  let sp o := ex_space o p n w in
  Forall (fun o => map (fun s => (s_bra s, s_ket s)) (ex_sectors (sp o) J0 g0 0) = upper_ends (ex_rule J0 g0) (sp o)) [KPN; KTz] ->
  library_order ex_env p n w J0 g0.
Proof.
  intros p n w J0 g0 sp H. unfold library_order. cbn [mk_space mk_sectors ex_env].
  unfold ex_space at 1 2. cbn [flat_map]. rewrite !app_nil_r.
  eexists _, _, _, (ex_rule J0 g0). split; [|split; [|split; [|split; [reflexivity|split; [reflexivity|split]]]]].
  1-3: apply Forall_forall; intros x Hx; apply in_flat_map in Hx; destruct Hx as (J & _ & Hx); rewrite app_nil_r, in_app_iff in Hx; destruct Hx as [Hx|Hx];
    match type of Hx with In _ (match ?l with _ => _ end) => destruct l end; try (destruct Hx; fail); destruct Hx as [<-|[]]; reflexivity.
  - intros x y Hxy. unfold ex_rule. rewrite !andb_false_iff. right. apply Z.eqb_neq. destruct (ss_species x), (ss_species y); try congruence; cbn; discriminate.
  - intros o. rewrite Forall_forall in H. apply H. destruct o; cbn; auto.
Qed.
Lemma order0p : library_order ex_env (ix_p ex_env ix0p) (ix_n ex_env ix0p) (ix_w ex_env ix0p) 0 0.
Proof. apply ex_library_order. repeat (apply Forall_cons; [vm_compute; reflexivity|]). apply Forall_nil. Qed.
Lemma re0p : reordered ex_env ix0p (conv_indexing ex_env ix0p V15200).
Proof. apply library_reordered; [reflexivity|reflexivity|reflexivity|exact order0p]. Qed.

(** version 0 for an operator on the orbitals 0s1/2, 0p3/2, 0p1/2 *)
Definition p_swapped (sp : ospecies) : list (orbital Z) := [Orb sp 0 0 1 0; Orb sp 0 1 3 1; Orb sp 0 1 1 1]%Z.
Definition ix_swapped : indexing ex_env :=
  let w := WMax 1%Z 1%Z 1%Z 1%Z 1%Z in
  let space := ex_space KPN (p_swapped SP) (p_swapped SN) w in
  @Ix ex_env (p_swapped SP) (p_swapped SN) KPN w space 0 0 0 (ex_sectors space 0 0 0).
Lemma swapped_ok : indexing_ok ex_env ix_swapped.
Proof. constructor; [reflexivity|reflexivity|apply ex_sectors_canonical| |]; repeat constructor. Qed.
Lemma swapped_scheme : scheme ex_env V15099 ix_swapped.
Proof.
  split; [reflexivity|]. split; [constructor; try reflexivity; repeat constructor|]. split; [reflexivity|].
  split; [intros []; vm_compute; reflexivity|]. apply below_check_ok; vm_compute; reflexivity.
Qed.
Lemma swapped_library : library_indexing ex_env ix_swapped.
Proof. apply ex_library; vm_compute; reflexivity. Qed.
Lemma swapped_conv : conv_indexing ex_env ix_swapped V0 = ix_swapped. Proof. reflexivity. Qed.
Definition swapped_data : list Z := match write_file_bin ex_env V15099 ix_swapped (whole_operator ex_env (ex_ws CNone ix_swapped)) with Ok d => d | _ => [] end.
Definition no_text : tfile ex_env := TFile ex_env [] true.
Definition swapped_out : list Z :=
  match h2conv ex_env 0%Z "a.bin" swapped_data no_text "b.bin" with Ok (Bytes _ d) => d | _ => [] end.
Lemma swapped_h2conv : h2conv ex_env 0%Z "a.bin" swapped_data no_text "b.bin" = Ok (Bytes ex_env swapped_out).
Proof.
  assert (H : match h2conv ex_env 0%Z "a.bin" swapped_data no_text "b.bin" with Ok (Bytes _ _) => true | _ => false end = true) by (vm_compute; reflexivity).
  unfold swapped_out. destruct (h2conv ex_env 0%Z "a.bin" swapped_data no_text "b.bin") as [[d|t]| | |]; try discriminate H. reflexivity.
Qed.
Definition element_at (d : list Z) (i t u : nat) : option Z :=
  match open_bin ex_env d with
  | Ok st => match reads_bin ex_env st [i] with Ok ([m], _) => Some (at_ m t u) | _ => None end
  | _ => None
  end.
Definition open_labels (d : list Z) : option (list (orbital Z) * list (orbital Z) * list (subspace * subspace)) :=
  match open_bin ex_env d with
  | Ok st => let ix := is_ix ex_env bstate st in
      Some (ix_p ex_env ix, ix_n ex_env ix, map (fun s => (s_bra s, s_ket s)) (ix_sectors ex_env ix))
  | _ => None
  end.
Lemma ok_inj : forall A (x y : A), Ok x = Ok y -> x = y.
Proof. intros A x y H. injection H as H. exact H. Qed.
Lemma some3 : forall A B C (a a' : A) (b b' : B) (c c' : C), Some (a, b, c) = Some (a', b', c') -> a = a' /\ b = b' /\ c = c'.
Proof. intros A B C a a' b b' c c' H. injection H as -> -> ->. auto. Qed.
Lemma nth_pair : forall (l : list sector) l' i a b, map (fun s => (s_bra s, s_ket s)) l = l' -> nth_error l' i = Some (a, b) ->
  exists s, nth_error l i = Some s /\ s_bra s = a /\ s_ket s = b.
Proof.
  intros l l' i a b <- H. rewrite nth_error_map in H. destruct (nth_error l i) as [s|]; [|discriminate H]. cbn in H. injection H as <- <-. exists s. auto.
Qed.
Lemma element_at_ok : forall d i t u v, element_at d i t u = Some v ->
  exists st r st', open_bin ex_env d = Ok st /\ reads_bin ex_env st [i] = Ok ([r], st') /\ at_ r t u = v.
Proof.
  intros d i t u v H. unfold element_at in H. destruct (open_bin ex_env d) as [st| | |]; try discriminate H.
  destruct (reads_bin ex_env st [i]) as [[rs st']| | |] eqn:Hr; try discriminate H. destruct rs as [|r [|? ?]]; try discriminate H.
  injection H as H. exists st, r, st'. auto.
Qed.
Lemma open_labels_ok : forall d st p n l, open_labels d = Some (p, n, l) -> open_bin ex_env d = Ok st ->
  ix_p ex_env (is_ix ex_env bstate st) = p /\ map (fun s => (s_bra s, s_ket s)) (ix_sectors ex_env (is_ix ex_env bstate st)) = l.
Proof. intros d st p n l H Ho. unfold open_labels in H. rewrite Ho in H. apply some3 in H. destruct H as (A & _ & B). auto. Qed.
Lemma swapped_data_ok : forall d, write_file_bin ex_env V15099 ix_swapped (whole_operator ex_env (ex_ws CNone ix_swapped)) = Ok d -> d = swapped_data.
Proof. intros d H. unfold swapped_data. rewrite H. reflexivity. Qed.
Lemma version_0_mislabels : exists E name data file st ms out_name d st' i s m s' r st'' a b v v',
  env_ok E /\ holds E name data file st ms /\ library_indexing E (any_ix E st) /\ conv_indexing E (any_ix E st) V0 = any_ix E st
  /\ h2conv E 0%Z name data file out_name = Ok (Bytes E d) /\ open_bin E d = Ok st'
  /\ nth_error (ix_sectors E (any_ix E st)) i = Some s /\ nth_error ms i = Some m
  /\ nth_error (ix_sectors E (is_ix E bstate st')) i = Some s' /\ reads_bin E st' [i] = Ok ([r], st'')
  /\ sub_labels (s_bra s) = sub_labels (s_bra s') /\ sub_labels (s_ket s) = sub_labels (s_ket s')
  /\ labelled E (any_ix E st) s m a b a b v /\ labelled E (is_ix E bstate st') s' r a b a b v' /\ v <> v'.
Proof.
  destruct (written_holds ex_env V15099 ix_swapped (ex_ws CNone ix_swapped) "a.bin" no_text ex_env_ok swapped_ok swapped_scheme) as (data & st & ms & Hw & Hh & Hix & Ho).
  { apply record_fits_small. vm_compute. reflexivity. }
  { apply ex_fits. discriminate. }
  { reflexivity. }
  { reflexivity. }
  apply swapped_data_ok in Hw. subst data.
  destruct (element_at_ok swapped_out 2 1 1 2070%Z) as (st' & r & st'' & Ho' & Hr & He); [vm_compute; reflexivity|].
  destruct (element_at_ok swapped_data 2 0 0 1960%Z) as (st0 & m0 & ist & Ho0 & Hri & Hi); [vm_compute; reflexivity|].
  rewrite Ho0 in Ho. apply ok_inj in Ho. subst st0.
  assert (Hm : nth_error ms 2 = Some m0).
  { destruct Hh as (_ & _ & Hall). rewrite reads_any_bin in Hall.
    destruct (reads_bin ex_env st (seq 0 (length (ix_sectors ex_env (any_ix ex_env (inl st)))))) as [[ms1 st1]| | |] eqn:Hs; try discriminate Hall.
    cbn [bind fst] in Hall. apply ok_inj in Hall. subst ms1.
    destruct (H2Access.bin_history_consistent ex_env swapped_data st _ [2] ms [m0] st1 ist 2 0 2 Ho0 Hs Hri) as (m' & A & B); [|reflexivity|].
    - cbn [any_ix]. rewrite Hix. vm_compute. reflexivity.
    - cbn in B. congruence. }
  destruct (open_labels_ok swapped_out st' (ex_osc SP 1) (ex_osc SN 1) (map (fun s => (s_bra s, s_ket s)) (ix_sectors ex_env ix0p))) as (Lp & Ls);
    [vm_compute; reflexivity|exact Ho'|].
  destruct (nth_pair _ _ 2 (Sub PP 1 1 [(0, 1); (0, 2)]) (Sub PP 1 1 [(0, 1); (0, 2)]) Ls) as (s' & Hs' & Kb & Kk); [vm_compute; reflexivity|].
  assert (Hs : nth_error (ix_sectors ex_env ix_swapped) 2 = Some (Sec (Sub PP 1 1 [(0, 1); (0, 2)]) (Sub PP 1 1 [(0, 1); (0, 2)]) 2 2)) by (vm_compute; reflexivity).
  exists ex_env, "a.bin", swapped_data, no_text, (inl st), ms, "b.bin", swapped_out, st', 2, (Sec (Sub PP 1 1 [(0, 1); (0, 2)]) (Sub PP 1 1 [(0, 1); (0, 2)]) 2 2), m0,
    s', r, st'', (Orb SP 0 0 1 0)%Z, (Orb SP 0 1 3 1)%Z, 1960%Z, 2070%Z.
  cbn [any_ix]. rewrite Hix, Kb, Kk.
  split; [exact ex_env_ok|]. split; [exact Hh|]. split; [exact swapped_library|]. split; [reflexivity|]. split; [exact swapped_h2conv|].
  split; [exact Ho'|]. split; [exact Hs|]. split; [exact Hm|]. split; [exact Hs'|]. split; [exact Hr|]. split; [reflexivity|]. split; [reflexivity|].
  split; [|split; [|discriminate]].
  - exists 0, 0. split; [exists 0, 1; repeat split|]. split; [exists 0, 1; repeat split|]. exact Hi.
  - exists 1, 1. unfold state_of. rewrite Kb, Kk. cbn [ss_species orbs_of fst snd ss_states]. rewrite Lp.
    split; [exists 0, 2; repeat split|]. split; [exists 0, 2; repeat split|]. exact He.
Qed.

Lemma output_indexing : forall E (ix : indexing E) f,
  ix_p E (conv_indexing E ix f) = ix_p E ix /\ ix_n E (conv_indexing E ix f) = ix_n E ix /\ ix_w E (conv_indexing E ix f) = ix_w E ix
  /\ ix_J0 E (conv_indexing E ix f) = ix_J0 E ix /\ ix_g0 E (conv_indexing E ix f) = ix_g0 E ix /\ ix_Tz0 E (conv_indexing E ix f) = ix_Tz0 E ix
  /\ (ix_ord E (conv_indexing E ix f) = KTz <-> f = V15200) /\ (ix_ord E (conv_indexing E ix f) = KPN <-> f <> V15200)
  /\ ix_space E (conv_indexing E ix f) = mk_space E (ix_ord E (conv_indexing E ix f)) (ix_p E ix) (ix_n E ix) (ix_w E ix)
  /\ ix_sectors E (conv_indexing E ix f) = mk_sectors E (ix_space E (conv_indexing E ix f)) (ix_J0 E ix) (ix_g0 E ix) (ix_Tz0 E ix).
Proof. intros E ix f. destruct f; cbn; repeat split; try congruence; try discriminate. Qed.
