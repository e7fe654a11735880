(** Proofs for C165-C168: identical nucleons, the table, and the three-body counts by angular momentum. *)
From Coq Require Import ZArith Lia Bool Permutation Sorted List.
From Verif Require Import Base BaseLemmas H2Model OscModel OscFinal SepModel CountModel CountSpec CountProof CountFinal MixProof ScModel ScSpec ScProof.
Import ListNotations.
Open Scope Z_scope.

(** * existence of lists *)
Lemma lists_filter : forall A (P : A -> Prop) (f : A -> bool) U, NoDup U -> (forall x, P x <-> In x U /\ f x = true) -> lists_all P (filter f U).
Proof. intros A P f U N H. split; [apply NoDup_filter; exact N|]. intros x. rewrite filter_In, H. reflexivity. Qed.
Lemma orbitals_nodup : forall K, NoDup (sporbitals K).
Proof. intros K. apply slt_nodup, sporbitals_strict. Qed.

(** * two nucleons *)
Lemma canon_refl : forall a, canon a a.
Proof. intros a. right. lia. Qed.
Lemma canon_total : forall a b, canon a b \/ canon b a.
Proof. intros a b. unfold canon. lia. Qed.
Lemma canon_anti : forall a b, canon a b -> canon b a -> a = b.
Proof. intros [a a'] [b b']. unfold canon. cbn [fst snd]. intros H1 H2. f_equal; lia. Qed.
Lemma pair_couples_self : forall a J, is_orbital a -> (pair_couples a a J <-> 0 <= J <= snd a).
Proof. intros a J (_ & _ & H). unfold pair_couples. lia. Qed.
Lemma pair_couples_sym : forall a b J, pair_couples a b J <-> pair_couples b a J.
Proof. intros a b J. unfold pair_couples. lia. Qed.
Definition sporb_eq (a b : sporb) : bool := (fst a =? fst b) && (snd a =? snd b).
Lemma sporb_eq_iff : forall a b, sporb_eq a b = true <-> a = b.
Proof.
  intros [a a'] [b b']. unfold sporb_eq. cbn [fst snd]. rewrite andb_true_iff, !Z.eqb_eq. split; [intros [-> ->]; reflexivity|]. intros E. split; congruence.
Qed.

Lemma identical_split : forall (cut : Z -> Z -> Prop) J l li ls, lists_all (pair_state cut J) l -> lists_all (identical_state cut J) li ->
  lists_all (fun a => same_orbital cut J a /\ Z.odd J = true) ls -> Z.of_nat (length l) = Z.of_nat (length li) + Z.of_nat (length ls).
Proof.
  intros cut J l li ls Hl Hi Hs. pose proof (lists_map _ _ _ (fun a : sporb => (a, a)) _ Hs ltac:(intros x y _ _ E; congruence)) as M.
  pose proof (lists_app _ _ _ _ _ Hi M) as U. rewrite (lists_all_length _ _ _ (li ++ map (fun a => (a, a)) ls) Hl).
  - rewrite app_length, map_length. lia.
  - eapply lists_all_iff; [|apply U].
    + intros [a b]. unfold identical_state. cbn [fst snd]. split.
      * intros [[H _]|(c & [(A & C & R) O] & E)]; [exact H|]. assert (c = a /\ c = b) as [-> <-] by (split; congruence).
        unfold pair_state. cbn [fst snd]. repeat (split; [first [exact A|apply canon_refl|exact C]|]). apply pair_couples_self; auto.
      * intros H. destruct (Z.even J) eqn:EJ; [left; auto|]. destruct (sporb_eq a b) eqn:Eab.
        -- right. apply sporb_eq_iff in Eab. subst b. exists a. split; [|reflexivity]. destruct H as (A & _ & _ & C & T). cbn [fst snd] in *.
           split; [|rewrite <- Z.negb_even, EJ; reflexivity]. split; [exact A|]. split; [exact C|]. apply pair_couples_self; auto.
        -- left. split; [exact H|]. intros E. exfalso. apply sporb_eq_iff in E. congruence.
    + intros [a b] [_ H] (c & [_ O] & E). cbn [fst snd] in *. assert (c = a /\ c = b) as [-> <-] by (split; congruence).
      rewrite <- Z.negb_even, (H eq_refl) in O. discriminate.
Qed.
Lemma pn_split : forall (cut : Z -> Z -> Prop) J l lp ls, (forall a b, cut a b -> cut b a) -> lists_all (pair_state cut J) l -> lists_all (pn_state cut J) lp ->
  lists_all (same_orbital cut J) ls -> Z.of_nat (length lp) + Z.of_nat (length ls) = 2 * Z.of_nat (length l).
Proof.
  intros cut J l lp ls Hsym Hl Hp Hs.
  pose (strict := filter (fun p : sporb * sporb => negb (sporb_eq (fst p) (snd p))) l).
  assert (Hstrict : lists_all (fun p => pair_state cut J p /\ fst p <> snd p) strict).
  { destruct Hl as [N I]. split; [apply NoDup_filter; exact N|]. intros p. unfold strict. rewrite filter_In, I, negb_true_iff. split.
    - intros [H E]. split; [exact H|]. intros E'. apply sporb_eq_iff in E'. congruence.
    - intros [H E]. split; [exact H|]. destruct (sporb_eq _ _) eqn:E'; [|reflexivity]. apply sporb_eq_iff in E'. contradiction. }
  pose proof (lists_map _ _ _ (fun a : sporb => (a, a)) _ Hs ltac:(intros x y _ _ E; congruence)) as M.
  pose proof (lists_map _ _ _ (fun p : sporb * sporb => (snd p, fst p)) _ Hstrict ltac:(intros [a b] [c d] _ _ E; cbn in E; congruence)) as T.
  assert (L1 : lists_all (pair_state cut J) (strict ++ map (fun a => (a, a)) ls)).
  { eapply lists_all_iff; [|apply (lists_app _ _ _ _ _ Hstrict M)].
    - intros [a b]. cbn [fst snd]. split.
      + intros [[H _]|(c & (A & C & R) & E)]; [exact H|]. assert (c = a /\ c = b) as [-> <-] by (split; congruence).
        unfold pair_state. cbn [fst snd]. repeat (split; [first [exact A|apply canon_refl|exact C]|]). apply pair_couples_self; auto.
      + intros H. destruct (sporb_eq a b) eqn:Eab.
        * right. apply sporb_eq_iff in Eab. subst b. exists a. split; [|reflexivity]. destruct H as (A & _ & _ & C & R). cbn [fst snd] in *.
          split; [exact A|]. split; [exact C|]. apply pair_couples_self; auto.
        * left. split; [exact H|]. intros E. apply sporb_eq_iff in E. congruence.
    - intros [a b] [_ H] (c & _ & E). cbn [fst snd] in *. apply H. congruence. }
  assert (L2 : lists_all (pn_state cut J) ((strict ++ map (fun a => (a, a)) ls) ++ map (fun p => (snd p, fst p)) strict)).
  { eapply lists_all_iff; [|apply (lists_app _ _ _ _ _ L1 T)].
    - intros [a b]. cbn [fst snd]. unfold pair_state, pn_state. cbn [fst snd]. split.
      + intros [H|([c d] & [(A & B & C & D & E) _] & G)]; [tauto|]. cbn [fst snd] in *. assert (d = a /\ c = b) as [-> ->] by (split; congruence).
        split; [exact B|]. split; [exact A|]. split; [apply Hsym; exact D|]. apply pair_couples_sym. exact E.
      + intros (A & B & D & E). destruct (canon_total a b) as [C|C]; [left; tauto|]. destruct (sporb_eq a b) eqn:Eab.
        * apply sporb_eq_iff in Eab. subst b. left. tauto.
        * right. exists (b, a). cbn [fst snd]. split; [|reflexivity]. split.
          -- split; [exact B|]. split; [exact A|]. split; [exact C|]. split; [apply Hsym; exact D|]. apply pair_couples_sym. exact E.
          -- intros G. symmetry in G. apply sporb_eq_iff in G. congruence.
    - intros [a b] (_ & _ & C & _) ([c d] & [(_ & _ & C' & _) G] & E). cbn [fst snd] in *. assert (d = a /\ c = b) as [-> ->] by (split; congruence).
      apply G. apply canon_anti; assumption. }
  rewrite (lists_all_length _ _ _ _ Hp L2), (lists_all_length _ _ _ _ Hl L1). rewrite !app_length, !map_length.
  assert (E : Z.of_nat (length strict) = Z.of_nat (length strict)) by reflexivity. lia.
Qed.

Theorem identical_nucleons : forall K N J li ls, N <= K -> lists_all (identical_state (both_within N) J) li ->
  lists_all (fun a => same_orbital (both_within N) J a /\ Z.odd J = true) ls ->
  two_one (sporbitals K) N J = Ok (Z.of_nat (length li) + Z.of_nat (length ls)).
Proof.
  intros K N J li ls HK Hi Hs. destruct (two_one_all K N J HK) as [-> L]. f_equal. eapply identical_split; eassumption.
Qed.
Theorem identical_nucleons_sum : forall K N J li ls, N <= K -> lists_all (identical_state (pair_sum_within N) J) li ->
  lists_all (fun a => same_orbital (pair_sum_within N) J a /\ Z.odd J = true) ls ->
  two_two (sporbitals K) N J = Ok (Z.of_nat (length li) + Z.of_nat (length ls)).
Proof.
  intros K N J li ls HK Hi Hs. destruct (two_two_all K N J HK) as [-> L]. f_equal. eapply identical_split; eassumption.
Qed.
Theorem even_J : forall K N J li, N <= K -> Z.even J = true -> lists_all (identical_state (both_within N) J) li ->
  two_one (sporbitals K) N J = Ok (Z.of_nat (length li)).
Proof.
  intros K N J li HK HJ Hi. rewrite (identical_nucleons K N J li [] HK Hi); [f_equal; cbn; lia|]. split; [constructor|].
  intros a. split; [contradiction|]. intros [_ O]. rewrite <- Z.negb_even, HJ in O. discriminate.
Qed.
Theorem proton_neutron : forall K N J lp ls y, N <= K -> lists_all (pn_state (both_within N) J) lp -> lists_all (same_orbital (both_within N) J) ls ->
  two_one (sporbitals K) N J = Ok y -> Z.of_nat (length lp) + Z.of_nat (length ls) = 2 * y.
Proof.
  intros K N J lp ls y HK Hp Hs Hy. destruct (two_one_all K N J HK) as [E L]. rewrite E in Hy. injection Hy as <-.
  eapply pn_split; [|exact L|exact Hp|exact Hs]. intros a b [H1 H2]. split; assumption.
Qed.
Theorem identical_refuted : exists N J l, 0 <= N /\ lists_all (identical_state (both_within N) J) l
  /\ two_one (sporbitals N) N J <> Ok (Z.of_nat (length l)).
Proof.
  exists 0, 1, []. split; [lia|]. split; [|vm_compute; discriminate]. split; [constructor|]. intros [a b]. split; [contradiction|].
  intros [((A1 & _ & A2) & (B1 & _ & B2) & _ & [C1 C2] & _) E]. cbn [fst snd] in *. assert (a = b) as G by (apply pair_eta; lia).
  specialize (E G). discriminate.
Qed.
Lemma pn_filter : forall N J, lists_all (pn_state (both_within N) J)
  (filter (fun p => triangle (snd (fst p)) (snd (snd p)) (2 * J)) (list_prod (sporbitals N) (sporbitals N))).
Proof.
  intros N J. apply lists_filter; [apply prod_nodup; apply orbitals_nodup|]. intros [a b]. rewrite in_prod_iff, !in_orbitals. unfold pn_state, both_within.
  cbn [fst snd]. split.
  - intros (A & B & [C D] & T). rewrite pair_triangle by assumption. tauto.
  - intros (((A & C) & (B & D)) & T). rewrite pair_triangle in T by assumption. tauto.
Qed.
Theorem pn_refuted : exists N J l, 0 <= N /\ lists_all (pn_state (both_within N) J) l /\ two_one (sporbitals N) N J <> Ok (Z.of_nat (length l)).
Proof. exists 1, 0. eexists. split; [lia|]. split; [apply pn_filter|]. vm_compute. discriminate. Qed.

(** * the table *)
Lemma append_rows : forall A B (f : A -> B) (l : list A) t, for_each l (fun x t => Ok (t ++ [f x])) t = Ok (t ++ map f l).
Proof.
  intros A B f l. induction l as [|x l IH]; intros t; cbn [for_each map]; [rewrite app_nil_r; reflexivity|]. cbn [bind]. rewrite IH, <- app_assoc. reflexivity.
Qed.
Lemma for_each_eq : forall A S (l : list A) (f g : A -> S -> outcome S) s, (forall x s, In x l -> f x s = g x s) -> for_each l f s = for_each l g s.
Proof.
  intros A S l f g. induction l as [|x l IH]; intros s H; [reflexivity|]. cbn [for_each]. rewrite H by (left; reflexivity). destruct (g x s); cbn [bind]; auto.
  apply IH. intros; apply H; right; assumption.
Qed.
Definition numbers (K N J : Z) : Z * Z * Z :=
  (Z.of_nat (length (am_pairs N J)), Z.of_nat (length (pair_list (fun a => a <=? N) (fun _ b => b <=? N) J (sporbitals K))),
   Z.of_nat (length (pair_list (fun a => a <=? N) (fun a b => a + b <=? N) J (sporbitals K)))).
Definition row (K N J : Z) : Z * Z * Z * Z * Z := let '(x, y, z) := numbers K N J in (N, J, x, y, z).
Lemma table_rows : forall K M, M <= K -> two_body_table (sporbitals K) M
  = Ok (flat_map (fun N => map (row K N) (zrange 0 (2 * N + 1))) (zrange 0 M)).
Proof.
  intros K M HK. unfold two_body_table.
  assert (G : forall N, In N (zrange 0 M) -> N <= K) by (intros N H; apply in_zrange in H; lia). revert G. generalize (zrange 0 M) as l.
  cut (forall l t, (forall N, In N l -> N <= K) ->
    for_each l (fun N t => for_each (zrange 0 ((shelljmax N + shelljmax N) / 2)) (fun J t =>
      bind (am_two N J) (fun x => bind (two_one (sporbitals K) N J) (fun y => bind (two_two (sporbitals K) N J) (fun z => Ok (t ++ [(N, J, x, y, z)]))))) t) t
    = Ok (t ++ flat_map (fun N => map (row K N) (zrange 0 (2 * N + 1))) l)).
  { intros H l G. apply (H l [] G). }
  induction l as [|N l IH]; intros t G; cbn [for_each flat_map]; [rewrite app_nil_r; reflexivity|].
  rewrite (for_each_eq _ _ _ _ (fun J t => Ok (t ++ [row K N J]))).
  - rewrite append_rows. cbn [bind]. rewrite IH by (intros; apply G; right; assumption). rewrite <- app_assoc. do 5 f_equal. unfold shelljmax.
    replace (2 * N + 1 + (2 * N + 1)) with ((2 * N + 1) * 2) by ring. apply Z.div_mul. lia.
  - intros J s _. rewrite am_two_count. cbn [bind]. destruct (two_one_all K N J (G N (or_introl eq_refl))) as [-> _].
    cbn [bind]. destruct (two_two_all K N J (G N (or_introl eq_refl))) as [-> _]. reflexivity.
Qed.
Theorem table_spec : forall K M, M <= K -> exists t, two_body_table (sporbitals K) M = Ok t /\ StronglySorted row_before t
  /\ (forall N J x y z, In (N, J, x, y, z) t <-> 0 <= N <= M /\ 0 <= J <= 2 * N + 1
       /\ am_two N J = Ok x /\ two_one (sporbitals K) N J = Ok y /\ two_two (sporbitals K) N J = Ok z).
Proof.
  intros K M HK. eexists. split; [apply table_rows; exact HK|]. split.
  - pose proof (zrange_sorted 0 M) as S. induction S as [|N l S IH F]; cbn [flat_map]; [constructor|]. apply StronglySorted_app.
    + pose proof (zrange_sorted 0 (2 * N + 1)) as S'. induction S' as [|J r S' IH' F']; cbn [map]; constructor; [exact IH'|].
      apply Forall_forall. intros q Hq. apply in_map_iff in Hq. destruct Hq as (J' & <- & HJ'). rewrite Forall_forall in F'. specialize (F' J' HJ').
      unfold row_before, row, numbers. right. auto.
    + exact IH.
    + intros p q Hp Hq. apply in_map_iff in Hp. destruct Hp as (J & <- & _). apply in_flat_map in Hq. destruct Hq as (N' & HN' & Hq).
      apply in_map_iff in Hq. destruct Hq as (J' & <- & _). rewrite Forall_forall in F. specialize (F N' HN'). unfold row_before, row, numbers. left. exact F.
  - intros N J x y z. rewrite in_flat_map. split.
    + intros (N' & HN & H). apply in_map_iff in H. destruct H as (J' & E & HJ). apply in_zrange in HN, HJ. unfold row, numbers in E. injection E as -> -> <- <- <-.
      split; [exact HN|]. split; [exact HJ|]. split; [apply am_two_count|]. split; [apply two_one_all|apply two_two_all]; lia.
    + intros (HN & HJ & Hx & Hy & Hz). exists N. split; [apply in_zrange; lia|]. apply in_map_iff. exists J. split; [|apply in_zrange; lia].
      unfold row, numbers. rewrite am_two_count in Hx. destruct (two_one_all K N J ltac:(lia)) as [E1 _]. destruct (two_two_all K N J ltac:(lia)) as [E2 _].
      rewrite E1 in Hy. rewrite E2 in Hz. injection Hx as <-. injection Hy as <-. injection Hz as <-. reflexivity.
Qed.
(** every angular momentum with a state has its row, and every row has a state in the one-body cut *)
Theorem table_complete : forall K N J y, N <= K -> two_one (sporbitals K) N J = Ok y -> (0 < y <-> 0 <= N /\ 0 <= J <= 2 * N + 1).
Proof.
  intros K N J y HK Hy. destruct (two_one_all K N J HK) as [E [_ L]]. rewrite E in Hy. injection Hy as <-. split.
  - intros H. destruct (pair_list _ _ _ _) as [|p l]; [cbn in H; lia|]. destruct (L p) as [G _]. destruct (G (or_introl eq_refl)) as ((A1 & _ & A2) & (B1 & _ & B2) & _ & [C D] & T).
    unfold pair_couples in T. lia.
  - intros [HN HJ]. assert (H : In ((N, 2 * N + 1), (N, 2 * N + 1)) (pair_list (fun a => a <=? N) (fun _ b => b <=? N) J (sporbitals K))).
    { apply L. assert (O : is_orbital (N, 2 * N + 1)).
      { unfold is_orbital. cbn [fst snd]. split; [exact HN|]. split; [rewrite Z.add_comm, Z.odd_add_mul_2; reflexivity|lia]. }
      unfold pair_state, both_within. cbn [fst snd]. split; [exact O|]. split; [exact O|]. split; [apply canon_refl|]. split; [lia|].
      apply pair_couples_self; [exact O|]. cbn [snd]. lia. }
    destruct (pair_list _ _ _ _); [contradiction|]. cbn [length]. lia.
Qed.

(** * three bodies by angular momentum *)
Definition am_triples (N J J1 : Z) : list (sporb * sporb * sporb) :=
  flat_map (fun ja => flat_map (fun jb => flat_map (fun jc =>
    if triangle ja jb (2 * J1) && triangle (2 * J1) jc J then list_prod (list_prod (with_j N ja) (with_j N jb)) (with_j N jc) else [])
    (halves jb (shelljmax N))) (halves ja (shelljmax N))) (halves 1 (shelljmax N)).
Lemma am_three_J1_count : forall N J1 J s, am_three_J1 N J1 J s = Ok (s + Z.of_nat (length (am_triples N J J1))).
Proof.
  intros N J1 J s. unfold am_three_J1, am_triples. rewrite flat_map_len. apply for_each_zsum. clear s.
  intros ja s Hja. apply in_halves in Hja; [|reflexivity|apply shelljmax_odd]. destruct Hja as [Oa Ra]. rewrite flat_map_len. apply for_each_zsum. clear s.
  intros jb s Hjb. apply in_halves in Hjb; [|exact Oa|apply shelljmax_odd]. destruct Hjb as [Ob Rb]. rewrite flat_map_len. apply for_each_zsum. clear s.
  intros jc s Hjc. apply in_halves in Hjc; [|exact Ob|apply shelljmax_odd]. destruct Hjc as [Oc Rc].
  destruct (triangle _ _ _ && _); [|cbn; f_equal; lia]. rewrite !dim_with_j by (auto; lia). cbn [bind]. rewrite !prod_length. f_equal. lia.
Qed.
Lemma am_triples_all : forall N J J1, Z.odd J = true -> lists_all (j_triple N J J1) (am_triples N J J1).
Proof.
  intros N J J1 OJ. split.
  - unfold am_triples. apply NoDup_flat_map; [apply halves_nodup| |].
    + intros ja _. apply NoDup_flat_map; [apply halves_nodup| |].
      * intros jb _. apply NoDup_flat_map; [apply halves_nodup| |].
        -- intros jc _. destruct (triangle _ _ _ && _); [|constructor]. apply prod_nodup; [apply prod_nodup|]; apply with_j_nodup.
        -- intros jc jc' [[a b] c] _ _ H H'. destruct (triangle ja jb _ && triangle _ jc J), (triangle ja jb _ && triangle _ jc' J); try contradiction.
           apply in_prod_iff in H, H'. rewrite !in_with_j in *. intuition congruence.
      * intros jb jb' [[a b] c] _ _ H H'. apply in_flat_map in H, H'. destruct H as (jc & _ & H), H' as (jc' & _ & H').
        destruct (triangle ja jb _ && _), (triangle ja jb' _ && _); try contradiction. apply in_prod_iff in H, H'. rewrite !in_prod_iff, !in_with_j in *. intuition congruence.
    + intros ja ja' [[a b] c] _ _ H H'. apply in_flat_map in H, H'. destruct H as (jb & _ & H), H' as (jb' & _ & H').
      apply in_flat_map in H, H'. destruct H as (jc & _ & H), H' as (jc' & _ & H').
      destruct (triangle ja jb _ && _), (triangle ja' jb' _ && _); try contradiction. apply in_prod_iff in H, H'. rewrite !in_prod_iff, !in_with_j in *. intuition congruence.
  - intros [[a b] c]. unfold am_triples, j_triple, each_within. rewrite in_flat_map. split.
    + intros (ja & Ha & H). apply in_flat_map in H. destruct H as (jb & Hb & H). apply in_flat_map in H. destruct H as (jc & Hc & H).
      apply in_halves in Ha; [|reflexivity|apply shelljmax_odd]. destruct Ha as [Oa Ra].
      apply in_halves in Hb; [|exact Oa|apply shelljmax_odd]. destruct Hb as [Ob Rb].
      apply in_halves in Hc; [|exact Ob|apply shelljmax_odd]. destruct Hc as [Oc Rc].
      destruct (triangle ja jb _ && _) eqn:T; [|contradiction]. apply triangle_true in T; auto. rewrite !in_prod_iff, !in_with_j in H.
      destruct H as (((A & A' & <-) & (B & B' & <-)) & (C & C' & <-)). intuition lia.
    + intros (A & B & C & (A' & B' & C') & L & T). assert (A0 := A). assert (B0 := B). assert (C0 := C).
      destruct A0 as (A1 & A2 & A3), B0 as (B1 & B2 & B3), C0 as (C1 & C2 & C3). apply triangle_true in T; auto.
      exists (snd a). split; [apply in_halves; [reflexivity|apply shelljmax_odd|]; unfold shelljmax; split; [exact A2|lia]|].
      apply in_flat_map. exists (snd b). split; [apply in_halves; [exact A2|apply shelljmax_odd|]; unfold shelljmax; split; [exact B2|lia]|].
      apply in_flat_map. exists (snd c). split; [apply in_halves; [exact B2|apply shelljmax_odd|]; unfold shelljmax; split; [exact C2|lia]|].
      rewrite T. rewrite !in_prod_iff, !in_with_j. auto.
Qed.
Theorem am_triples_spec : forall N J1 J l, Z.odd J = true -> lists_all (j_triple N J J1) l -> am_three_J1 N J1 J 0 = Ok (Z.of_nat (length l)).
Proof. intros N J1 J l OJ H. rewrite am_three_J1_count. f_equal. rewrite Z.add_0_l. f_equal. eapply lists_all_length; [apply am_triples_all; exact OJ|exact H]. Qed.

Definition am_states (N J : Z) : list (sporb * sporb * sporb * Z) := flat_map (fun J1 => map (fun t => (t, J1)) (am_triples N J J1)) (zrange 0 (shelljmax N)).
Lemma am_three_count : forall N J, am_three N J = Ok (Z.of_nat (length (am_states N J))).
Proof.
  intros N J. unfold am_three, am_states. rewrite flat_map_len. rewrite (for_each_zsum _ _ _ (fun J1 => Z.of_nat (length (am_triples N J J1)))).
  - rewrite Z.add_0_l. f_equal. apply zsum_ext. intros J1 _. rewrite map_length. reflexivity.
  - intros J1 s _. rewrite am_three_J1_count. reflexivity.
Qed.
Lemma am_states_all : forall N J, Z.odd J = true -> lists_all (j_state N J) (am_states N J).
Proof.
  intros N J OJ. split.
  - unfold am_states. apply NoDup_flat_map; [apply NoDup_zrange| |].
    + intros J1 _. apply FinFun.Injective_map_NoDup; [intros x y E; congruence|]. apply am_triples_all. exact OJ.
    + intros J1 J1' p _ _ H H'. apply in_map_iff in H, H'. destruct H as (t & <- & _), H' as (t' & E & _). congruence.
  - intros [t J1]. unfold am_states, j_state. cbn [fst snd]. rewrite in_flat_map. split.
    + intros (J1' & _ & H). apply in_map_iff in H. destruct H as (t' & E & H). assert (t' = t /\ J1' = J1) as [-> ->] by (split; congruence).
      apply (proj2 (am_triples_all N J J1 OJ)). exact H.
    + intros H. exists J1. split; [|apply in_map_iff; exists t; split; [reflexivity|apply (proj2 (am_triples_all N J J1 OJ)); exact H]].
      destruct t as [[a b] c]. destruct H as ((_ & _ & A) & (_ & _ & B) & _ & (A' & B' & _) & _ & [T _]). apply in_zrange. unfold shelljmax. lia.
Qed.
Theorem am_states_spec : forall N J l, Z.odd J = true -> lists_all (j_state N J) l -> am_three N J = Ok (Z.of_nat (length l)).
Proof. intros N J l OJ H. rewrite am_three_count. do 2 f_equal. eapply lists_all_length; [apply am_states_all; exact OJ|exact H]. Qed.

Theorem not_a_bound_refuted : exists N J1 J x y, Z.odd J = true /\ am_three_J1 N J1 J 0 = Ok x /\ dim_one_J1 (sporbitals N) N J1 J = Ok y /\ x < y.
Proof. exists 4, 6, 11. do 2 eexists. split; [reflexivity|]. split; [vm_compute; reflexivity|]. split; [vm_compute; reflexivity|]. vm_compute. reflexivity. Qed.
