(** Proofs for C165-C167. *)
From Coq Require Import ZArith Lia Bool Permutation Sorted List.
From Verif Require Import Base BaseLemmas H2Model OscModel OscFinal SepModel CountModel CountSpec CountProof CountFinal ScModel ScSpec.
Import ListNotations.
Open Scope Z_scope.

(** * the orbitals in strict canonical order *)
Definition slt (a b : sporb) : Prop := fst a < fst b \/ (fst a = fst b /\ snd a < snd b).
Lemma zrange_sorted : forall a b, StronglySorted Z.lt (zrange a b).
Proof.
  intros a b. unfold zrange. generalize (Z.to_nat (b - a + 1)). intros n.
  assert (H : forall s, StronglySorted Z.lt (map (fun i => a + Z.of_nat i) (seq s n))).
  { induction n as [|n IH]; intros s; cbn; constructor; [apply IH|]. apply Forall_forall. intros y Hy. apply in_map_iff in Hy.
    destruct Hy as (i & <- & Hi). apply in_seq in Hi. lia. }
  apply H.
Qed.
Lemma sporbitals_strict : forall K, StronglySorted slt (sporbitals K).
Proof.
  intros K. unfold sporbitals.
  assert (G : forall l, StronglySorted Z.lt l -> StronglySorted slt (flat_map (fun N => map (fun i => (N, 2 * i + 1)) (zrange 0 N)) l)).
  { induction l as [|N l IH]; intros S; [constructor|]. inversion S as [|? ? S' F]; subst. cbn [flat_map]. apply StronglySorted_app.
    - pose proof (zrange_sorted 0 N) as Z0. induction Z0 as [|i r Sr IHr Fr]; cbn [map]; constructor; [exact IHr|]. apply Forall_forall. intros y Hy.
      apply in_map_iff in Hy. destruct Hy as (k & <- & Hk). rewrite Forall_forall in Fr. specialize (Fr k Hk). right. cbn [fst snd]. lia.
    - apply IH. exact S'.
    - intros x y Hx Hy. apply in_map_iff in Hx. destruct Hx as (i & <- & _). apply in_flat_map in Hy. destruct Hy as (N' & HN' & Hy).
      apply in_map_iff in Hy. destruct Hy as (i' & <- & _). left. cbn. rewrite Forall_forall in F. apply F. exact HN'. }
  apply G. apply zrange_sorted.
Qed.
Lemma slt_nodup : forall l, StronglySorted slt l -> NoDup l.
Proof.
  intros l H. induction H as [|a l H IH F]; constructor; [|exact IH]. intros I. rewrite Forall_forall in F. specialize (F a I). unfold slt in F. lia.
Qed.
Lemma in_orbitals : forall K a, In a (sporbitals K) <-> is_orbital a /\ fst a <= K.
Proof. intros K [N j]. rewrite in_sporbitals. unfold is_orbital. cbn [fst snd]. intuition lia. Qed.

(** * the double loops *)
Lemma orb_loop_cons : forall S (cond : sporb -> bool) (body : sporb -> list sporb -> S -> outcome S) x l s,
  orb_loop cond body (x :: l) s = if cond x then bind (body x (x :: l) s) (fun s' => orb_loop cond body l s') else Ok s.
Proof. reflexivity. Qed.
Section Pairs.
Variables (ca : Z -> bool) (cb : Z -> Z -> bool) (J : Z).
Hypothesis Ha : forall a a', a <= a' -> ca a' = true -> ca a = true.
Hypothesis Hb : forall a b b', b <= b' -> cb a b' = true -> cb a b = true.
Definition counted (a b : sporb) : bool := cb (fst a) (fst b) && triangle (snd a) (snd b) (2 * J).
Fixpoint pair_list (l : list sporb) : list (sporb * sporb) :=
  match l with
  | [] => []
  | a :: l' => (if ca (fst a) then map (pair a) (filter (counted a) l) else []) ++ pair_list l'
  end.

Lemma inner_count : forall a l s, StronglySorted slt l ->
  orb_loop (fun b => cb (fst a) (fst b)) (fun b _ s => Ok (if triangle (snd a) (snd b) (2 * J) then s + 1 else s)) l s
  = Ok (s + Z.of_nat (length (filter (counted a) l))).
Proof.
  intros a l. induction l as [|b l IH]; intros s S; cbn [orb_loop filter length]; [f_equal; lia|]. inversion S as [|? ? S' F]; subst.
  unfold counted at 1. destruct (cb (fst a) (fst b)) eqn:Eb; cbn [bind andb].
  - rewrite IH by exact S'. destruct (triangle _ _ _); cbn [length]; f_equal; lia.
  - assert (E : filter (counted a) l = []).
    { clear IH S S'. induction l as [|c l IHl]; [reflexivity|]. inversion F as [|? ? Fc F']; subst. cbn [filter]. unfold counted at 1.
      destruct (cb (fst a) (fst c)) eqn:Ec; [|exact (IHl F')]. rewrite (Hb (fst a) (fst b) (fst c)) in Eb; [discriminate|unfold slt in Fc; lia|exact Ec]. }
    rewrite E. cbn. f_equal. lia.
Qed.
Lemma pair_count : forall l, StronglySorted slt l -> pair_loop ca cb l J = Ok (Z.of_nat (length (pair_list l))).
Proof.
  intros l S. unfold pair_loop. replace (Z.of_nat (length (pair_list l))) with (0 + Z.of_nat (length (pair_list l))) by lia. generalize 0 as s.
  induction l as [|a l IH]; intros s; [cbn; f_equal; lia|]. rewrite orb_loop_cons. cbn [pair_list]. inversion S as [|? ? S' F]; subst.
  destruct (ca (fst a)) eqn:Ea.
  - rewrite inner_count by exact S. cbn [bind]. rewrite IH by exact S'. rewrite app_length, map_length. f_equal. lia.
  - assert (E : pair_list l = []).
    { clear IH S S'. induction l as [|c l IHl]; [reflexivity|]. inversion F as [|? ? Fc F']; subst. cbn [pair_list].
      destruct (ca (fst c)) eqn:Ec; [|exact (IHl F')]. rewrite (Ha (fst a) (fst c)) in Ea; [discriminate|unfold slt in Fc; lia|exact Ec]. }
    rewrite E. cbn. f_equal. lia.
Qed.
Lemma in_pair_list : forall l a b, StronglySorted slt l ->
  (In (a, b) (pair_list l) <-> In a l /\ In b l /\ canon a b /\ ca (fst a) = true /\ counted a b = true).
Proof.
  intros l a b S. induction S as [|x l S IH F]; [cbn; tauto|]. cbn [pair_list]. rewrite in_app_iff, IH. rewrite Forall_forall in F. split.
  - intros [H|(H1 & H2 & H)]; [|split; [right; exact H1|split; [right; exact H2|exact H]]].
    destruct (ca (fst x)) eqn:Ex; [|contradiction]. apply in_map_iff in H. destruct H as (y & E & Hy).
    assert (x = a /\ y = b) as [-> ->] by (split; congruence). apply filter_In in Hy. destruct Hy as [Hy Hc].
    split; [left; reflexivity|]. split; [exact Hy|]. split; [|auto]. destruct Hy as [->|Hy]; [right; lia|]. specialize (F b Hy). unfold slt in F. unfold canon. lia.
  - intros ([->|H1] & H2 & Hc & Hca & Hcc).
    + left. rewrite Hca. apply in_map_iff. exists b. split; [reflexivity|]. apply filter_In. auto.
    + right. split; [exact H1|]. destruct H2 as [->|H2]; [|auto]. exfalso. specialize (F a H1). unfold slt in F. unfold canon in Hc. lia.
Qed.
Lemma pair_list_nodup : forall l, StronglySorted slt l -> NoDup (pair_list l).
Proof.
  intros l S. induction S as [|x l S IH F]; [constructor|]. cbn [pair_list]. rewrite Forall_forall in F. apply nodup_app.
  - destruct (ca _); [|constructor]. apply FinFun.Injective_map_NoDup; [intros y z E; congruence|]. apply NoDup_filter, slt_nodup. constructor; [exact S|].
    apply Forall_forall. exact F.
  - exact IH.
  - intros [a b] H1 H2. apply in_pair_list in H2; [|exact S]. destruct H2 as (H2 & _). destruct (ca _); [|contradiction].
    apply in_map_iff in H1. destruct H1 as (y & E & _). assert (x = a) by congruence. subst. specialize (F a H2). unfold slt in F. lia.
Qed.
End Pairs.

Lemma pair_triangle : forall a b J, is_orbital a -> is_orbital b -> (triangle (snd a) (snd b) (2 * J) = true <-> pair_couples a b J).
Proof.
  intros [N j] [M k] J (_ & O1 & _) (_ & O2 & _). cbn [fst snd] in *. unfold triangle, pair_couples. cbn [snd].
  assert (E : Z.even (j + k + 2 * J) = true).
  { apply odd_half in O1, O2. destruct O1 as [x ->], O2 as [y ->]. replace (2 * x + 1 + (2 * y + 1) + 2 * J) with (2 * (x + y + 1 + J)) by ring.
    rewrite Z.even_mul. reflexivity. }
  rewrite E, andb_true_r, andb_true_iff, !Z.leb_le. tauto.
Qed.

Lemma two_one_all : forall K N J, N <= K ->
  two_one (sporbitals K) N J = Ok (Z.of_nat (length (pair_list (fun a => a <=? N) (fun _ b => b <=? N) J (sporbitals K))))
  /\ lists_all (pair_state (both_within N) J) (pair_list (fun a => a <=? N) (fun _ b => b <=? N) J (sporbitals K)).
Proof.
  intros K N J HK. split; [|split].
  - apply pair_count; [intros a a' H E; apply Z.leb_le in E; apply Z.leb_le; lia|intros a b b' H E; apply Z.leb_le in E; apply Z.leb_le; lia|].
    apply sporbitals_strict.
  - apply pair_list_nodup, sporbitals_strict.
  - intros [a b]. rewrite in_pair_list by apply sporbitals_strict. rewrite !in_orbitals. unfold pair_state, counted, both_within. cbn [fst snd].
    rewrite andb_true_iff, !Z.leb_le. split.
    + intros ([A A'] & [B B'] & C & D & E & T). apply pair_triangle in T; [tauto|exact A|exact B].
    + intros (A & B & C & [D E] & T). apply pair_triangle in T; [|exact A|exact B]. intuition lia.
Qed.
Lemma two_two_all : forall K N J, N <= K ->
  two_two (sporbitals K) N J = Ok (Z.of_nat (length (pair_list (fun a => a <=? N) (fun a b => a + b <=? N) J (sporbitals K))))
  /\ lists_all (pair_state (pair_sum_within N) J) (pair_list (fun a => a <=? N) (fun a b => a + b <=? N) J (sporbitals K)).
Proof.
  intros K N J HK. split; [|split].
  - apply pair_count; [intros a a' H E; apply Z.leb_le in E; apply Z.leb_le; lia|intros a b b' H E; apply Z.leb_le in E; apply Z.leb_le; lia|].
    apply sporbitals_strict.
  - apply pair_list_nodup, sporbitals_strict.
  - intros [a b]. rewrite in_pair_list by apply sporbitals_strict. rewrite !in_orbitals. unfold pair_state, counted, pair_sum_within. cbn [fst snd].
    rewrite andb_true_iff, !Z.leb_le. split.
    + intros ([A A'] & [B B'] & C & D & E & T). apply pair_triangle in T; [tauto|exact A|exact B].
    + intros (A & B & C & D & T). apply pair_triangle in T; [|exact A|exact B]. assert (0 <= fst a) by apply A. assert (0 <= fst b) by apply B.
      intuition lia.
Qed.

Theorem one_body_pairs : forall K N J l, N <= K -> lists_all (pair_state (both_within N) J) l -> two_one (sporbitals K) N J = Ok (Z.of_nat (length l)).
Proof.
  intros K N J l HK Hl. destruct (two_one_all K N J HK) as [-> H]. do 2 f_equal. eapply lists_all_length; [exact H|exact Hl].
Qed.
Theorem two_body_pairs : forall K N J l, N <= K -> lists_all (pair_state (pair_sum_within N) J) l -> two_two (sporbitals K) N J = Ok (Z.of_nat (length l)).
Proof.
  intros K N J l HK Hl. destruct (two_two_all K N J HK) as [-> H]. do 2 f_equal. eapply lists_all_length; [exact H|exact Hl].
Qed.

(** the two-body cut is within the one-body cut, and the one-body cut within the two-body cut at twice the shell *)
Lemma lists_incl : forall A (P Q : A -> Prop) l m, lists_all P l -> lists_all Q m -> (forall x, P x -> Q x) -> Z.of_nat (length l) <= Z.of_nat (length m).
Proof.
  intros A P Q l m [N H] [_ M] I. apply Nat2Z.inj_le, NoDup_incl_length; [exact N|]. intros x Hx. apply M, I, H, Hx.
Qed.
Theorem cuts_nested : forall K N J x y z, 2 * N <= K -> 0 <= N ->
  two_one (sporbitals K) N J = Ok x -> two_two (sporbitals K) N J = Ok y -> two_two (sporbitals K) (2 * N) J = Ok z -> y <= x <= z.
Proof.
  intros K N J x y z HK HN Hx Hy Hz. destruct (two_one_all K N J ltac:(lia)) as [E1 L1]. destruct (two_two_all K N J ltac:(lia)) as [E2 L2].
  destruct (two_two_all K (2 * N) J HK) as [E3 L3]. rewrite E1 in Hx. rewrite E2 in Hy. rewrite E3 in Hz.
  injection Hx as <-. injection Hy as <-. injection Hz as <-. split.
  - eapply lists_incl; [exact L2|exact L1|]. intros p (A & B & C & D & T). assert (0 <= fst (fst p)) by apply A. assert (0 <= fst (snd p)) by apply B.
    unfold pair_state, both_within, pair_sum_within in *. repeat split; auto; try lia; try apply A; try apply B; apply T.
  - eapply lists_incl; [exact L1|exact L3|]. intros p (A & B & C & D & T).
    unfold pair_state, both_within, pair_sum_within in *. repeat split; auto; try lia; try apply A; try apply B; apply T.
Qed.

(** * the count by angular momentum *)
Lemma for_each_zsum : forall A (l : list A) (body : A -> Z -> outcome Z) f s, (forall x s, In x l -> body x s = Ok (s + f x)) ->
  for_each l body s = Ok (s + zsum l f).
Proof.
  intros A l body f. induction l as [|x l IH]; intros s H; cbn [for_each zsum]; [f_equal; lia|].
  rewrite H by (left; reflexivity). cbn [bind]. rewrite IH by (intros; apply H; right; assumption). f_equal. lia.
Qed.
Lemma in_halves : forall ja top j, Z.odd ja = true -> Z.odd top = true -> (In j (halves ja top) <-> Z.odd j = true /\ ja <= j <= top).
Proof.
  intros ja top j O1 O2. unfold halves. apply odd_half in O1, O2. destruct O1 as [a ->], O2 as [t ->].
  replace (2 * t + 1 - (2 * a + 1)) with ((t - a) * 2) by ring. rewrite Z.div_mul by lia. rewrite in_map_iff. split.
  - intros (i & <- & H). apply in_zrange in H. split; [|lia]. replace (2 * a + 1 + 2 * i) with (1 + 2 * (a + i)) by ring. rewrite Z.odd_add_mul_2. reflexivity.
  - intros (O & H). apply odd_half in O. destruct O as [k ->]. exists (k - a). split; [lia|]. apply in_zrange. lia.
Qed.
Lemma halves_nodup : forall ja top, NoDup (halves ja top).
Proof. intros ja top. unfold halves. apply FinFun.Injective_map_NoDup; [intros x y E; lia|apply NoDup_zrange]. Qed.
Lemma shelljmax_odd : forall N, Z.odd (shelljmax N) = true.
Proof. intros N. unfold shelljmax. rewrite Z.add_comm, Z.odd_add_mul_2. reflexivity. Qed.

Definition with_j (N j : Z) : list sporb := filter (fun o => snd o =? j) (sporbitals N).
Lemma in_with_j : forall N j a, In a (with_j N j) <-> is_orbital a /\ fst a <= N /\ snd a = j.
Proof. intros N j a. unfold with_j. rewrite filter_In, in_orbitals, Z.eqb_eq. tauto. Qed.
Lemma with_j_nodup : forall N j, NoDup (with_j N j).
Proof. intros N j. apply NoDup_filter, slt_nodup, sporbitals_strict. Qed.
Lemma dim_with_j : forall N j, Z.odd j = true -> 1 <= j <= shelljmax N -> orbital_dimension N j = Ok (Z.of_nat (length (with_j N j))).
Proof.
  intros N j O H. unfold shelljmax in H. apply orbital_dimension_count; [exact O|lia|]. split; [apply with_j_nodup|].
  intros a. unfold with_j. rewrite filter_In, Z.eqb_eq. reflexivity.
Qed.
Lemma prod_nodup : forall A B (l : list A) (m : list B), NoDup l -> NoDup m -> NoDup (list_prod l m).
Proof.
  intros A B l m Hl Hm. induction Hl as [|x l Hx Hl IH]; cbn; [constructor|]. apply nodup_app; [|exact IH|].
  - apply FinFun.Injective_map_NoDup; [intros y z E; congruence|exact Hm].
  - intros [a b] H1 H2. apply in_map_iff in H1. destruct H1 as (y & E & _). apply in_prod_iff in H2. assert (x = a) by congruence. subst. tauto.
Qed.

Definition am_pairs (N J : Z) : list (sporb * sporb) :=
  flat_map (fun ja => flat_map (fun jb => if triangle ja jb (2 * J) then list_prod (with_j N ja) (with_j N jb) else [])
    (halves ja (shelljmax N))) (halves 1 (shelljmax N)).
Lemma am_two_count : forall N J, am_two N J = Ok (Z.of_nat (length (am_pairs N J))).
Proof.
  intros N J. unfold am_two, am_pairs. rewrite flat_map_len.
  rewrite (for_each_zsum _ _ _ (fun ja => zsum (halves ja (shelljmax N)) (fun jb => if triangle ja jb (2 * J) then
     Z.of_nat (length (with_j N ja)) * Z.of_nat (length (with_j N jb)) else 0))).
  - rewrite Z.add_0_l. f_equal. apply zsum_ext. intros ja _. rewrite flat_map_len. apply zsum_ext. intros jb _.
    destruct (triangle _ _ _); [|reflexivity]. rewrite prod_length. lia.
  - intros ja s Hja. apply in_halves in Hja; [|reflexivity|apply shelljmax_odd]. destruct Hja as [Oa Ra]. apply for_each_zsum.
    intros jb s' Hjb. apply in_halves in Hjb; [|exact Oa|apply shelljmax_odd]. destruct Hjb as [Ob Rb].
    destruct (triangle _ _ _); [|f_equal; lia]. rewrite !dim_with_j by (auto; lia). reflexivity.
Qed.
Lemma am_pairs_all : forall N J, lists_all (j_pair N J) (am_pairs N J).
Proof.
  intros N J. split.
  - unfold am_pairs. apply NoDup_flat_map; [apply halves_nodup| |].
    + intros ja _. apply NoDup_flat_map; [apply halves_nodup| |].
      * intros jb _. destruct (triangle _ _ _); [|constructor]. apply prod_nodup; apply with_j_nodup.
      * intros jb jb' [a b] _ _ H H'. destruct (triangle ja jb _), (triangle ja jb' _); try contradiction.
        apply in_prod_iff in H, H'. rewrite !in_with_j in *. intuition congruence.
    + intros ja ja' [a b] _ _ H H'. apply in_flat_map in H, H'. destruct H as (jb & _ & H), H' as (jb' & _ & H').
      destruct (triangle ja jb _), (triangle ja' jb' _); try contradiction. apply in_prod_iff in H, H'. rewrite !in_with_j in *. intuition congruence.
  - intros [a b]. unfold am_pairs, j_pair, both_within. cbn [fst snd]. rewrite in_flat_map. split.
    + intros (ja & Ha & H). apply in_flat_map in H. destruct H as (jb & Hb & H). apply in_halves in Ha; [|reflexivity|apply shelljmax_odd]. destruct Ha as [Oa Ra].
      apply in_halves in Hb; [|exact Oa|apply shelljmax_odd]. destruct (triangle ja jb _) eqn:T; [|contradiction]. apply in_prod_iff in H.
      rewrite !in_with_j in H. destruct H as ((A & A' & <-) & (B & B' & <-)). apply pair_triangle in T; auto. repeat split; auto; try apply A; try apply B; try apply T; lia.
    + intros (A & B & [A' B'] & L & T). apply pair_triangle in T; auto. assert (A0 := A). assert (B0 := B). destruct A0 as (A1 & A2 & A3), B0 as (B1 & B2 & B3).
      exists (snd a). split; [apply in_halves; [reflexivity|apply shelljmax_odd|]; unfold shelljmax; split; [exact A2|lia]|].
      apply in_flat_map. exists (snd b). split; [apply in_halves; [exact A2|apply shelljmax_odd|]; unfold shelljmax; split; [exact B2|lia]|].
      rewrite T. apply in_prod_iff. rewrite !in_with_j. auto.
Qed.
Theorem am_pairs_spec : forall N J l, lists_all (j_pair N J) l -> am_two N J = Ok (Z.of_nat (length l)).
Proof. intros N J l H. rewrite am_two_count. do 2 f_equal. eapply lists_all_length; [apply am_pairs_all|exact H]. Qed.

(** the surplus over the count in canonical order *)
Definition order_pair (p : sporb * sporb) : sporb * sporb := if snd (fst p) <=? snd (snd p) then p else (snd p, fst p).
Lemma lists_map : forall A B (P : A -> Prop) (f : A -> B) l, lists_all P l -> (forall x y, P x -> P y -> f x = f y -> x = y) ->
  lists_all (fun b => exists a, P a /\ f a = b) (map f l).
Proof.
  intros A B P f l [N H] I. split.
  - assert (G : forall x, In x l -> P x) by (intros x Hx; apply H; exact Hx). clear H. induction N as [|x l Hx N IH]; cbn; [constructor|]. constructor.
    + intros Hi. apply in_map_iff in Hi. destruct Hi as (y & E & Hy). apply Hx. rewrite (I x y); auto; apply G; [left; reflexivity|right; exact Hy].
    + apply IH. intros y Hy. apply G. right. exact Hy.
  - intros b. rewrite in_map_iff. split; intros (a & E & Ha); exists a; [rewrite <- H|rewrite H]; auto.
Qed.
Lemma lists_app : forall A (P Q : A -> Prop) l m, lists_all P l -> lists_all Q m -> (forall x, P x -> Q x -> False) -> lists_all (fun x => P x \/ Q x) (l ++ m).
Proof.
  intros A P Q l m [N H] [N' H'] D. split; [|intros x; rewrite in_app_iff, H, H'; tauto]. apply nodup_app; auto. intros x Hx Hx'. apply (D x); [apply H|apply H']; assumption.
Qed.
Lemma pair_eta : forall (p q : sporb), fst p = fst q -> snd p = snd q -> p = q.
Proof. intros [a b] [c d]. cbn. congruence. Qed.
Theorem am_surplus : forall K N J x y l, N <= K -> am_two N J = Ok x -> two_one (sporbitals K) N J = Ok y ->
  lists_all (like_pair N J) l -> x = y + Z.of_nat (length l).
Proof.
  intros K N J x y l HK Hx Hy Hl. destruct (two_one_all K N J HK) as [E1 L1]. rewrite E1 in Hy. injection Hy as <-.
  pose proof (lists_map _ _ _ order_pair _ L1) as M.
  assert (Inj : forall p q, pair_state (both_within N) J p -> pair_state (both_within N) J q -> order_pair p = order_pair q -> p = q).
  { intros [a b] [c d] (_ & _ & C & _) (_ & _ & D & _) E. unfold order_pair, canon in *. cbn [fst snd] in *.
    destruct (Z.leb_spec (snd a) (snd b)), (Z.leb_spec (snd c) (snd d)); try exact E; injection E; intros; subst; try reflexivity.
    - exfalso. lia.
    - exfalso. lia. }
  specialize (M Inj).
  pose proof (lists_map _ _ _ (fun p : sporb * sporb => (snd p, fst p)) _ Hl) as M2.
  specialize (M2 ltac:(intros [a b] [c d] _ _ E; cbn in E; congruence)).
  assert (D : forall p, (exists a, pair_state (both_within N) J a /\ order_pair a = p) -> (exists a, like_pair N J a /\ (snd a, fst a) = p) -> False).
  { intros p ([a b] & (_ & _ & C & _) & E1') ([c d] & (_ & _ & _ & F & G & _) & E2'). unfold order_pair, canon in *. cbn [fst snd] in *. subst p.
    destruct (Z.leb_spec (snd a) (snd b)); injection E2'; intros; subst; lia. }
  pose proof (lists_app _ _ _ _ _ M M2 D) as U.
  rewrite (am_pairs_spec N J (map order_pair (pair_list (fun a => a <=? N) (fun _ b => b <=? N) J (sporbitals K)) ++ map (fun p => (snd p, fst p)) l)) in Hx;
    [injection Hx as <-; rewrite app_length, !map_length; lia|].
  eapply lists_all_iff; [|exact U]. clear U M M2 D Inj Hx E1 L1 Hl l. cbv beta.
  intros [a b]. split.
  - intros [([c d] & (A & B & C & W & T) & E)|([c d] & (A & B & W & F & G & H) & E)]; cbn [fst snd] in *.
    + unfold order_pair in E. cbn [fst snd] in E. unfold j_pair, both_within, pair_couples, canon, is_orbital in *. cbn [fst snd] in *.
      destruct (Z.leb_spec (snd c) (snd d)); injection E as <- <-; intuition lia.
    + injection E as <- <-. unfold j_pair, both_within, pair_couples, is_orbital in *. cbn [fst snd] in *. intuition lia.
  - intros (A & B & W & L & T). cbn [fst snd] in *. unfold both_within, pair_couples in *. cbn [fst snd] in *.
    destruct (Z.eq_dec (snd a) (snd b)) as [E|E].
    + destruct (Z_le_gt_dec (fst a) (fst b)) as [G|G].
      * left. exists (a, b). unfold pair_state, both_within, order_pair, canon, pair_couples, is_orbital in *. cbn [fst snd].
        destruct (Z.leb_spec (snd a) (snd b)); [|lia]. split; [|reflexivity]. intuition lia.
      * right. exists (b, a). unfold like_pair, both_within, is_orbital in *. cbn [fst snd]. split; [|reflexivity]. intuition lia.
    + left. destruct (Z_le_gt_dec (fst a) (fst b)) as [G|G].
      * exists (a, b). unfold pair_state, both_within, order_pair, canon, pair_couples, is_orbital in *. cbn [fst snd].
        destruct (Z.leb_spec (snd a) (snd b)); [|lia]. split; [|reflexivity]. intuition lia.
      * exists (b, a). unfold pair_state, both_within, order_pair, canon, pair_couples, is_orbital in *. cbn [fst snd].
        destruct (Z.leb_spec (snd b) (snd a)); [lia|]. split; [|reflexivity]. intuition lia.
Qed.
