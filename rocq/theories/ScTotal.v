(** Proofs for C168: the total count by angular momentum is never below the count in canonical order. *)
From Coq Require Import ZArith Lia Bool Permutation Sorted List.
From Verif Require Import Base BaseLemmas H2Model OscModel OscFinal SepModel CountModel CountSpec CountProof CountFinal ScModel ScSpec ScProof ScFinal.
Import ListNotations.
Open Scope Z_scope.

(** * the couplings of three angular momenta do not depend on their order *)
Definition first_J1 (ja jb jc J : Z) : Z := Z.max (Z.abs ((ja - jb) / 2)) (Z.abs ((J - jc) / 2)).
Definition last_J1 (ja jb jc J : Z) : Z := Z.min ((ja + jb) / 2) ((J + jc) / 2).
Lemma couples_range : forall ja jb jc J J1, Z.odd ja = true -> Z.odd jb = true -> Z.odd jc = true -> Z.odd J = true ->
  (couples ja jb jc J J1 <-> first_J1 ja jb jc J <= J1 <= last_J1 ja jb jc J).
Proof.
  intros ja jb jc J J1 O1 O2 O3 O4. apply odd_half in O1, O2, O3, O4. destruct O1 as [a ->], O2 as [b ->], O3 as [c ->], O4 as [j ->].
  unfold couples, first_J1, last_J1.
  replace (2 * a + 1 - (2 * b + 1)) with ((a - b) * 2) by ring. replace (2 * j + 1 - (2 * c + 1)) with ((j - c) * 2) by ring.
  replace (2 * a + 1 + (2 * b + 1)) with ((a + b + 1) * 2) by ring. replace (2 * j + 1 + (2 * c + 1)) with ((j + c + 1) * 2) by ring.
  rewrite !Z.div_mul by lia. lia.
Qed.
Definition width (l : list sporb) (J : Z) : Z :=
  match l with [a; b; c] => last_J1 (snd a) (snd b) (snd c) J - first_J1 (snd a) (snd b) (snd c) J | _ => 0 end.
Lemma width_swap12 : forall a b c J, Z.odd (snd a) = true -> Z.odd (snd b) = true -> width [a; b; c] J = width [b; a; c] J.
Proof.
  intros [Na ja] [Nb jb] [Nc jc] J O1 O2. cbn [snd width] in *. unfold last_J1, first_J1. apply odd_half in O1, O2. destruct O1 as [a ->], O2 as [b ->].
  replace (2 * a + 1 - (2 * b + 1)) with ((a - b) * 2) by ring. replace (2 * b + 1 - (2 * a + 1)) with ((b - a) * 2) by ring.
  rewrite (Z.add_comm (2 * b + 1)). rewrite !Z.div_mul by lia. lia.
Qed.
Lemma width_swap23 : forall a b c J, is_orbital a -> is_orbital b -> is_orbital c -> Z.odd J = true -> 0 < J ->
  Z.max (width [a; b; c] J) (-1) = Z.max (width [a; c; b] J) (-1).
Proof.
  intros [Na ja] [Nb jb] [Nc jc] J (_ & O1 & R1) (_ & O2 & R2) (_ & O3 & R3) O4 RJ. cbn [fst snd width] in *. unfold last_J1, first_J1.
  apply odd_half in O1, O2, O3, O4. destruct O1 as [a ->], O2 as [b ->], O3 as [c ->], O4 as [j ->].
  replace (2 * a + 1 - (2 * b + 1)) with ((a - b) * 2) by ring. replace (2 * j + 1 - (2 * c + 1)) with ((j - c) * 2) by ring.
  replace (2 * a + 1 + (2 * b + 1)) with ((a + b + 1) * 2) by ring. replace (2 * j + 1 + (2 * c + 1)) with ((j + c + 1) * 2) by ring.
  replace (2 * a + 1 - (2 * c + 1)) with ((a - c) * 2) by ring. replace (2 * j + 1 - (2 * b + 1)) with ((j - b) * 2) by ring.
  replace (2 * a + 1 + (2 * c + 1)) with ((a + c + 1) * 2) by ring. replace (2 * j + 1 + (2 * b + 1)) with ((j + b + 1) * 2) by ring.
  rewrite !Z.div_mul by lia. assert (0 <= a) by lia. assert (0 <= b) by lia. assert (0 <= c) by lia. assert (0 <= j) by lia. clear - H H0 H1 H2. lia.
Qed.

(** * sorting a triple by angular momentum *)
Definition le_j (a b : sporb) : bool := (snd a <? snd b) || ((snd a =? snd b) && (fst a <=? fst b)).
Definition swap (a b : sporb) : sporb * sporb := if le_j a b then (a, b) else (b, a).
Definition sort3 (a b c : sporb) : sporb * sporb * sporb :=
  let '(a, b) := swap a b in let '(b, c) := swap b c in let '(a, b) := swap a b in (a, b, c).
Definition to_list (t : sporb * sporb * sporb) : list sporb := let '(a, b, c) := t in [a; b; c].
Lemma swap_cases : forall a b, (swap a b = (a, b) /\ snd a <= snd b) \/ (swap a b = (b, a) /\ snd b <= snd a).
Proof.
  intros a b. unfold swap. destruct (le_j a b) eqn:E; unfold le_j in E; [left|right]; split; auto.
  - apply orb_prop in E. destruct E as [E|E]; [apply Z.ltb_lt in E; lia|]. apply andb_prop in E. destruct E as [E _]. apply Z.eqb_eq in E. lia.
  - apply orb_false_elim in E. destruct E as [E _]. apply Z.ltb_ge in E. exact E.
Qed.
Lemma sort3_perm : forall a b c, Permutation [a; b; c] (to_list (sort3 a b c)).
Proof.
  intros a b c. unfold sort3. destruct (swap_cases a b) as [[-> _]|[-> _]].
  - destruct (swap_cases b c) as [[-> _]|[-> _]].
    + destruct (swap_cases a b) as [[-> _]|[-> _]]; cbn [to_list]; [reflexivity|apply perm_swap].
    + destruct (swap_cases a c) as [[-> _]|[-> _]]; cbn [to_list]; [apply perm_skip, perm_swap|].
      apply (perm_trans (l' := [a; c; b])); [apply perm_skip, perm_swap|apply perm_swap].
  - destruct (swap_cases a c) as [[-> _]|[-> _]].
    + destruct (swap_cases b a) as [[-> _]|[-> _]]; cbn [to_list]; [apply perm_swap|reflexivity].
    + destruct (swap_cases b c) as [[-> _]|[-> _]]; cbn [to_list].
      * apply (perm_trans (l' := [b; a; c])); [apply perm_swap|apply perm_skip, perm_swap].
      * apply (perm_trans (l' := [b; a; c])); [apply perm_swap|]. apply (perm_trans (l' := [b; c; a])); [apply perm_skip, perm_swap|apply perm_swap].
Qed.
Lemma sort3_sorted : forall a b c, let '(x, y, z) := sort3 a b c in snd x <= snd y <= snd z.
Proof.
  intros a b c. unfold sort3. destruct (swap_cases a b) as [[-> H1]|[-> H1]].
  - destruct (swap_cases b c) as [[-> H2]|[-> H2]].
    + destruct (swap_cases a b) as [[-> H3]|[-> H3]]; lia.
    + destruct (swap_cases a c) as [[-> H3]|[-> H3]]; lia.
  - destruct (swap_cases a c) as [[-> H2]|[-> H2]].
    + destruct (swap_cases b a) as [[-> H3]|[-> H3]]; lia.
    + destruct (swap_cases b c) as [[-> H3]|[-> H3]]; lia.
Qed.
Lemma sort3_width : forall a b c J, is_orbital a -> is_orbital b -> is_orbital c -> Z.odd J = true -> 0 < J ->
  Z.max (width [a; b; c] J) (-1) = Z.max (width (to_list (sort3 a b c)) J) (-1).
Proof.
  intros a b c J A B C OJ RJ. assert (Oa : Z.odd (snd a) = true) by apply A. assert (Ob : Z.odd (snd b) = true) by apply B. assert (Oc : Z.odd (snd c) = true) by apply C.
  assert (S12 : forall x y z, Z.odd (snd x) = true -> Z.odd (snd y) = true -> Z.max (width [x; y; z] J) (-1) = Z.max (width [y; x; z] J) (-1)).
  { intros x y z Ox Oy. rewrite width_swap12; auto. }
  unfold sort3. destruct (swap_cases a b) as [[-> _]|[-> _]].
  - destruct (swap_cases b c) as [[-> _]|[-> _]].
    + destruct (swap_cases a b) as [[-> _]|[-> _]]; cbn [to_list]; [reflexivity|apply S12; auto].
    + destruct (swap_cases a c) as [[-> _]|[-> _]]; cbn [to_list]; [apply width_swap23; auto|].
      rewrite (width_swap23 a b c) by auto. apply S12; auto.
  - destruct (swap_cases a c) as [[-> _]|[-> _]].
    + destruct (swap_cases b a) as [[-> _]|[-> _]]; cbn [to_list]; [apply S12; auto|reflexivity].
    + destruct (swap_cases b c) as [[-> _]|[-> _]]; cbn [to_list].
      * etransitivity; [apply S12; auto|]. apply (width_swap23 b a c); auto.
      * etransitivity; [apply (S12 a b c); auto|]. etransitivity; [apply (width_swap23 b a c); auto|]. apply S12; auto.
Qed.

(** * triples in canonical order *)
Lemma sorted_perm : forall l l' : list sporb, StronglySorted canon l -> StronglySorted canon l' -> Permutation l l' -> l = l'.
Proof.
  intros l. induction l as [|x l IH]; intros l' S S' P; [apply Permutation_nil in P; auto|]. destruct l' as [|y l']; [symmetry in P; apply Permutation_nil in P; discriminate|].
  inversion S as [|? ? S1 F]; subst. inversion S' as [|? ? S1' F']; subst. rewrite Forall_forall in F, F'.
  assert (E : x = y).
  { assert (Hx : In x (y :: l')) by (eapply Permutation_in; [exact P|left; reflexivity]).
    assert (Hy : In y (x :: l)) by (eapply Permutation_in; [symmetry; exact P|left; reflexivity]).
    destruct Hx as [Hx|Hx]; [auto|]. destruct Hy as [Hy|Hy]; [auto|]. apply canon_anti; [apply F; exact Hy|apply F'; exact Hx]. }
  subst y. f_equal. apply IH; auto. apply Permutation_cons_inv in P. exact P.
Qed.
Lemma nth_sorted : forall l i k a b, StronglySorted slt l -> (i <= k)%nat -> nth_error l i = Some a -> nth_error l k = Some b -> canon a b.
Proof.
  intros l i k a b S. revert i k. induction S as [|x l S IH F]; intros i k H Ha Hb; [destruct i; discriminate|]. rewrite Forall_forall in F.
  destruct i as [|i], k as [|k]; cbn in Ha, Hb; try lia.
  - assert (a = b) by congruence. subst. apply canon_refl.
  - assert (x = a) by congruence. subst. apply nth_error_In in Hb. specialize (F b Hb). unfold slt in F. unfold canon. lia.
  - eapply IH; [|exact Ha|exact Hb]. lia.
Qed.
Lemma canon_trans : forall a b c, canon a b -> canon b c -> canon a c.
Proof. intros a b c. unfold canon. lia. Qed.
Lemma sorted3 : forall a b c, canon a b -> canon b c -> StronglySorted canon [a; b; c].
Proof.
  intros a b c H1 H2. pose proof (canon_trans a b c H1 H2) as H3. constructor.
  - constructor; [constructor; [constructor|constructor]|]. constructor; [exact H2|constructor].
  - constructor; [exact H1|]. constructor; [exact H3|constructor].
Qed.

Section Total.
Variables (K N J : Z).
Hypothesis OJ : Z.odd J = true.
Let orbs := sporbitals K.
Definition state_test (q : nat * nat * nat * Z) : bool :=
  let '(i, k, m, J1) := q in (i <=? k)%nat && (k <=? m)%nat &&
  match nth_error orbs i, nth_error orbs k, nth_error orbs m with
  | Some a, Some b, Some c => (fst a <=? N) && (fst b <=? N) && (fst c <=? N) && (triangle (snd a) (snd b) (2 * J1) && triangle (2 * J1) (snd c) J)
  | _, _, _ => false
  end.
Definition all_states : list (nat * nat * nat * Z) :=
  filter state_test (list_prod (list_prod (list_prod (seq 0 (length orbs)) (seq 0 (length orbs))) (seq 0 (length orbs))) (zrange 0 (2 * K + 1))).
Lemma all_states_all : lists_all (states (each_within N) orbs J) all_states.
Proof.
  unfold all_states. apply lists_filter; [repeat (apply prod_nodup; [|first [apply seq_NoDup|apply NoDup_zrange]]); apply seq_NoDup|].
  intros [[[i k] m] J1]. unfold states, three_orbitals, state_test. rewrite !in_prod_iff, !in_seq, in_zrange, !andb_true_iff, !Nat.leb_le.
  assert (B : forall i a, nth_error orbs i = Some a -> (i < length orbs)%nat /\ is_orbital a /\ fst a <= K).
  { intros i0 a H. split; [apply nth_error_Some; congruence|]. apply in_orbitals. apply nth_error_In in H. exact H. }
  split.
  - intros (Hle & a & b & c & Ha & Hb & Hc & (W1 & W2 & W3) & T). rewrite Ha, Hb, Hc.
    destruct (B i a Ha) as (Li & A & A'), (B k b Hb) as (Lk & B0 & B'), (B m c Hc) as (Lm & C & C').
    assert (T0 := T). destruct T0 as [T0 _]. destruct A as (_ & A2 & A3), B0 as (_ & B2 & B3), C as (_ & C2 & C3).
    apply triangle_true in T; auto. rewrite T. rewrite andb_true_r, !andb_true_iff, !Z.leb_le. repeat split; lia.
  - intros (_ & Hle & H). destruct (nth_error orbs i) as [a|] eqn:Ha; [|discriminate]. destruct (nth_error orbs k) as [b|] eqn:Hb; [|discriminate].
    destruct (nth_error orbs m) as [c|] eqn:Hc; [|discriminate]. rewrite !andb_true_iff, !Z.leb_le in H. destruct H as (((W1 & W2) & W3) & T).
    split; [lia|]. exists a, b, c. split; [reflexivity|]. split; [reflexivity|]. split; [reflexivity|]. split; [unfold each_within; auto|].
    apply triangle_true; [apply (B i a Ha)|apply (B k b Hb)|apply (B m c Hc)|exact OJ|]. apply andb_true_iff. exact T.
Qed.

Definition dflt3 (i : nat) : sporb := nth i orbs dflt.
Definition to_j (q : nat * nat * nat * Z) : sporb * sporb * sporb * Z :=
  let '(i, k, m, J1) := q in let a := dflt3 i in let b := dflt3 k in let c := dflt3 m in
  let '(x, y, z) := sort3 a b c in (x, y, z, J1 - first_J1 (snd a) (snd b) (snd c) J + first_J1 (snd x) (snd y) (snd z) J).
Lemma to_j_state : forall q, states (each_within N) orbs J q -> j_state N J (to_j q).
Proof.
  intros [[[i k] m] J1] (Hle & a & b & c & Ha & Hb & Hc & W & T). unfold to_j, dflt3.
  rewrite (nth_error_nth _ _ dflt Ha), (nth_error_nth _ _ dflt Hb), (nth_error_nth _ _ dflt Hc). cbn zeta.
  apply nth_error_In, in_orbitals in Ha, Hb, Hc. destruct Ha as [A _], Hb as [B _], Hc as [C _].
  assert (RJ : 0 < J). { destruct A as (_ & _ & A), B as (_ & _ & B), C as (_ & _ & C). destruct T as [_ T]. apply odd_half in OJ. destruct OJ as [h ->]. lia. }
  pose proof (sort3_perm a b c) as P. pose proof (sort3_sorted a b c) as So. pose proof (sort3_width a b c J A B C OJ RJ) as Wd.
  destruct (sort3 a b c) as [[x y] z]. cbn [to_list] in P, Wd. unfold j_state, j_triple. cbn [fst snd].
  assert (In3 : forall u, In u [x; y; z] -> is_orbital u /\ fst u <= N).
  { intros u Hu. apply (Permutation_in u (Permutation_sym P)) in Hu. destruct W as (W1 & W2 & W3). destruct Hu as [<-|[<-|[<-|[]]]]; auto. }
  destruct (In3 x ltac:(cbn; auto)) as [X X'], (In3 y ltac:(cbn; auto)) as [Y Y'], (In3 z ltac:(cbn; auto)) as [Z0 Z'].
  repeat (split; [first [exact X|exact Y|exact Z0|unfold each_within; lia|exact So]|]).
  assert (OX : Z.odd (snd x) = true) by apply X. assert (OY : Z.odd (snd y) = true) by apply Y. assert (OZ : Z.odd (snd z) = true) by apply Z0.
  apply couples_range; auto. apply couples_range in T; [|apply A|apply B|apply C|exact OJ]. cbn [width] in Wd. lia.
Qed.
Lemma to_j_inj : forall p q, states (each_within N) orbs J p -> states (each_within N) orbs J q -> to_j p = to_j q -> p = q.
Proof.
  intros [[[i k] m] J1] [[[i' k'] m'] J1'] (Hle & a & b & c & Ha & Hb & Hc & W & T) (Hle' & a' & b' & c' & Ha' & Hb' & Hc' & W' & T'). unfold to_j, dflt3.
  rewrite (nth_error_nth _ _ dflt Ha), (nth_error_nth _ _ dflt Hb), (nth_error_nth _ _ dflt Hc).
  rewrite (nth_error_nth _ _ dflt Ha'), (nth_error_nth _ _ dflt Hb'), (nth_error_nth _ _ dflt Hc'). cbn zeta. intros E.
  pose proof (sort3_perm a b c) as P. pose proof (sort3_perm a' b' c') as P'.
  assert (E3 : [a; b; c] = [a'; b'; c']).
  { apply sorted_perm.
    - apply sorted3; [eapply (nth_sorted orbs i k)|eapply (nth_sorted orbs k m)]; eauto; try apply sporbitals_strict; lia.
    - apply sorted3; [eapply (nth_sorted orbs i' k')|eapply (nth_sorted orbs k' m')]; eauto; try apply sporbitals_strict; lia.
    - rewrite P, P'. destruct (sort3 a b c) as [[x y] z], (sort3 a' b' c') as [[x' y'] z']. cbn [to_list].
      assert (x = x' /\ y = y' /\ z = z') as (-> & -> & ->) by (repeat split; congruence). reflexivity. }
  assert (a = a' /\ b = b' /\ c = c') as (-> & -> & ->) by (repeat split; congruence).
  assert (U : forall i j u, nth_error orbs i = Some u -> nth_error orbs j = Some u -> i = j).
  { intros i0 j0 u H H'. apply (proj1 (NoDup_nth_error orbs) (orbitals_nodup K)); [apply nth_error_Some; congruence|congruence]. }
  rewrite (U i i' a' Ha Ha'), (U k k' b' Hb Hb'), (U m m' c' Hc Hc'). destruct (sort3 a' b' c') as [[x y] z]. f_equal.
  assert (E1 : J1 - first_J1 (snd a') (snd b') (snd c') J + first_J1 (snd x) (snd y) (snd z) J
             = J1' - first_J1 (snd a') (snd b') (snd c') J + first_J1 (snd x) (snd y) (snd z) J) by congruence. lia.
Qed.
Theorem total_bound : forall x y, am_three N J = Ok x -> dim_one (sporbitals K) N J = Ok y -> y <= x.
Proof.
  intros x y Hx Hy. rewrite (one_body_total K N J _ OJ all_states_all) in Hy. injection Hy as <-.
  rewrite am_three_count in Hx. injection Hx as <-. rewrite <- (map_length to_j).
  eapply lists_incl; [apply (lists_map _ _ _ to_j _ all_states_all to_j_inj)|apply am_states_all; exact OJ|].
  intros t (q & Hq & <-). apply to_j_state. exact Hq.
Qed.
End Total.

(** * cases *)
Lemma pairs_case : lists_all (pair_state (both_within 1) 2) [((0, 1), (1, 3)); ((1, 1), (1, 3)); ((1, 3), (1, 3))]
  /\ lists_all (pair_state (pair_sum_within 1) 2) [((0, 1), (1, 3))].
Proof.
  split.
  - destruct (two_one_all 1 1 2 ltac:(lia)) as [_ H].
    assert (E : pair_list (fun a => a <=? 1) (fun _ b => b <=? 1) 2 (sporbitals 1) = [((0, 1), (1, 3)); ((1, 1), (1, 3)); ((1, 3), (1, 3))]) by (vm_compute; reflexivity).
    rewrite E in H. exact H.
  - destruct (two_two_all 1 1 2 ltac:(lia)) as [_ H].
    assert (E : pair_list (fun a => a <=? 1) (fun a b => a + b <=? 1) 2 (sporbitals 1) = [((0, 1), (1, 3))]) by (vm_compute; reflexivity).
    rewrite E in H. exact H.
Qed.
Lemma table_case : two_body_table (sporbitals 1) 1
  = Ok [(0, 0, 1, 1, 1); (0, 1, 1, 1, 1); (1, 0, 5, 4, 2); (1, 1, 7, 6, 3); (1, 2, 3, 3, 1); (1, 3, 1, 1, 0)].
Proof. vm_compute. reflexivity. Qed.
Lemma same_case : lists_all (same_orbital (both_within 1) 3) [(1, 3)] /\ Z.odd 3 = true /\ two_one (sporbitals 1) 1 3 = Ok 1.
Proof.
  split; [|split; [reflexivity|vm_compute; reflexivity]]. split; [repeat constructor; cbn; tauto|]. intros [N j]. unfold same_orbital, is_orbital, both_within. cbn [In fst snd].
  split.
  - intros [E|[]]. injection E as <- <-. repeat split; lia.
  - intros ((H1 & _ & H2 & H3) & [H4 _] & H5 & H6). left. f_equal; lia.
Qed.
Lemma like_case : lists_all (like_pair 1 0) [((0, 1), (1, 1))] /\ am_two 1 0 = Ok 5 /\ two_one (sporbitals 1) 1 0 = Ok 4.
Proof.
  split; [|split; vm_compute; reflexivity]. split; [repeat constructor; cbn; tauto|]. intros [[Na ja] [Nb jb]]. unfold like_pair, is_orbital, both_within. cbn [In fst snd].
  split.
  - intros [E|[]]. injection E as <- <- <- <-. repeat split; lia.
  - intros ((H1 & _ & H2 & H3) & (H4 & _ & H5 & H6) & [H7 H8] & H9 & H10 & H11). left. assert (Na = 0) by lia. assert (Nb = 1) by lia. assert (ja = 1) by lia.
    assert (jb = 1) by lia. subst. reflexivity.
Qed.
Lemma triple_case : j_triple 2 5 3 ((2, 1), (2, 5), (2, 5)) /\ am_three_J1 2 3 5 0 = Ok 18 /\ dim_one_J1 (sporbitals 2) 2 3 5 = Ok 14
  /\ am_three 4 1 = Ok 1374 /\ dim_one (sporbitals 4) 4 1 = Ok 818.
Proof.
  split; [unfold j_triple, is_orbital, each_within, couples; cbn [fst snd]; repeat split; lia|]. repeat split; vm_compute; reflexivity.
Qed.
