(** Proofs for C48. *)
From Coq Require Import List ZArith Lia Bool Permutation Sorted.
From Verif Require Import Base BaseLemmas H2Model OscModel OscFinal SepModel CountModel CountSpec CountProof.
Import ListNotations.
Open Scope Z_scope.

Definition odd (z : Z) : Prop := Z.odd z = true.
Lemma odd_half : forall z, Z.odd z = true -> exists k, z = 2 * k + 1.
Proof. intros z H. apply Z.odd_spec in H. exact H. Qed.

Lemma ivalue_even : forall k, ivalue (2 * k) = Ok k.
Proof. intros k. unfold ivalue. rewrite Z.even_mul. change (Z.even 2) with true. cbn iota beta delta [Datatypes.orb]. rewrite Z.mul_comm, Z.div_mul by lia. reflexivity. Qed.

Lemma lists_all_length : forall A (P : A -> Prop) l l', lists_all P l -> lists_all P l' -> length l = length l'.
Proof.
  intros A P l l' [N H] [N' H']. apply Permutation_length, NoDup_Permutation; [exact N|exact N'|]. intros x. rewrite H, H'. reflexivity.
Qed.
Lemma zrange_all : forall a b, lists_all (fun x => a <= x <= b) (zrange a b).
Proof. intros a b. split; [apply NoDup_zrange|apply in_zrange]. Qed.
Lemma zrange_len : forall a b, Z.of_nat (length (zrange a b)) = Z.max (b - a + 1) 0.
Proof. intros a b. unfold zrange. rewrite map_length, seq_length. lia. Qed.
Lemma lists_all_iff : forall A (P Q : A -> Prop) l, (forall x, P x <-> Q x) -> lists_all P l -> lists_all Q l.
Proof. intros A P Q l H [N I]. split; [exact N|]. intros x. rewrite I. apply H. Qed.

Lemma couplings_range : forall ja jb jc J, Z.odd ja = true -> Z.odd jb = true -> Z.odd jc = true -> Z.odd J = true ->
  exists lo hi, couplings ja jb jc J = Ok (Z.max (hi - lo + 1) 0) /\ forall J1, couples ja jb jc J J1 <-> lo <= J1 <= hi.
Proof.
  intros ja jb jc J Ha Hb Hc HJ. apply odd_half in Ha, Hb, Hc, HJ. destruct Ha as [a ->], Hb as [b ->], Hc as [c ->], HJ as [j ->].
  exists (Z.max (Z.abs (a - b)) (Z.abs (j - c))), (Z.min (a + b + 1) (j + c + 1)). unfold couplings.
  replace (2 * a + 1 - (2 * b + 1)) with (2 * (a - b)) by ring. replace (2 * j + 1 - (2 * c + 1)) with (2 * (j - c)) by ring.
  replace (2 * a + 1 + (2 * b + 1)) with (2 * (a + b + 1)) by ring. replace (2 * j + 1 + (2 * c + 1)) with (2 * (j + c + 1)) by ring.
  rewrite !ivalue_even. cbn [bind]. split; [f_equal; lia|]. intros J1. unfold couples. lia.
Qed.
Lemma couplings_count : forall ja jb jc J l, Z.odd ja = true -> Z.odd jb = true -> Z.odd jc = true -> Z.odd J = true ->
  lists_all (couples ja jb jc J) l -> couplings ja jb jc J = Ok (Z.of_nat (length l)).
Proof.
  intros ja jb jc J l Ha Hb Hc HJ H. destruct (couplings_range ja jb jc J Ha Hb Hc HJ) as (lo & hi & -> & E).
  f_equal. rewrite <- zrange_len. f_equal. eapply lists_all_length; [|exact H].
  eapply lists_all_iff; [|apply zrange_all]. intros x. symmetry. apply E.
Qed.

(** * sums *)
Fixpoint zsum {A} (l : list A) (f : A -> Z) : Z := match l with [] => 0 | x :: l' => f x + zsum l' f end.
Lemma zsum_ext : forall A (l : list A) f g, (forall x, In x l -> f x = g x) -> zsum l f = zsum l g.
Proof. intros A l f g. induction l as [|x l IH]; intros H; [reflexivity|]. cbn. rewrite H, IH; auto; [intros; apply H; right; assumption|left; reflexivity]. Qed.
Lemma zsum_map : forall A B (h : A -> B) l f, zsum (map h l) f = zsum l (fun x => f (h x)).
Proof. intros A B h l f. induction l as [|x l IH]; cbn; [reflexivity|]. f_equal. exact IH. Qed.
Lemma flat_map_len : forall A B (f : A -> list B) l, Z.of_nat (length (flat_map f l)) = zsum l (fun x => Z.of_nat (length (f x))).
Proof. intros A B f l. induction l as [|x l IH]; [reflexivity|]. cbn [flat_map]. rewrite app_length, Nat2Z.inj_add, IH. reflexivity. Qed.
Lemma NoDup_flat_map : forall A B (f : A -> list B) l, NoDup l -> (forall x, In x l -> NoDup (f x)) ->
  (forall x y z, In x l -> In y l -> In z (f x) -> In z (f y) -> x = y) -> NoDup (flat_map f l).
Proof.
  intros A B f l. induction l as [|x l IH]; intros N H D; [constructor|]. inversion N; subst. cbn. apply nodup_app.
  - apply H. left. reflexivity.
  - apply IH; [assumption|intros; apply H; right; assumption|]. intros y y' z Hy Hy'. apply D; right; assumption.
  - intros z Hz Hz'. apply in_flat_map in Hz'. destruct Hz' as (y & Hy & Hz'). assert (x = y) by (eapply D; [left; reflexivity|right; exact Hy|exact Hz|exact Hz']).
    subst. contradiction.
Qed.

(** * loops over orbitals *)
Definition ordered (l : list sporb) : Prop := StronglySorted (fun a b => fst a <= fst b) l.
Lemma ordered_skipn : forall i l, ordered l -> ordered (skipn i l).
Proof. induction i as [|i IH]; intros [|x l] H; cbn; auto. apply IH. inversion H; assumption. Qed.
Definition dflt : sporb := (0, 0).
Lemma orb_loop_sum : forall (cond : sporb -> bool) (body : sporb -> list sporb -> Z -> outcome Z) g l s, ordered l ->
  (forall a b, fst a <= fst b -> cond b = true -> cond a = true) ->
  (forall i s, (i < length l)%nat -> cond (nth i l dflt) = true -> body (nth i l dflt) (skipn i l) s = Ok (s + g (nth i l dflt) (skipn i l))) ->
  orb_loop cond body l s
  = Ok (s + zsum (seq 0 (length l)) (fun i => if cond (nth i l dflt) then g (nth i l dflt) (skipn i l) else 0)).
Proof.
  intros cond body g l. induction l as [|x l IH]; intros s Ho Hc Hb; cbn [orb_loop].
  - cbn. f_equal. lia.
  - inversion Ho as [|? ? Ho' Hx]; subst. cbn [length seq zsum]. change (nth 0 (x :: l) dflt) with x. change (skipn 0 (x :: l)) with (x :: l). destruct (cond x) eqn:Ex.
    + pose proof (Hb 0%nat s ltac:(cbn; lia) Ex) as Hb0. cbn [nth skipn] in Hb0. rewrite Hb0. cbn [bind]. rewrite IH; auto.
      * f_equal. rewrite <- Z.add_assoc. f_equal. f_equal. rewrite <- seq_shift. rewrite zsum_map. reflexivity.
      * intros i s' Hi Hci. apply (Hb (S i) s'); [cbn; lia|exact Hci].
    + f_equal. assert (E : zsum (seq 1 (length l)) (fun i => if cond (nth i (x :: l) dflt) then g (nth i (x :: l) dflt) (skipn i (x :: l)) else 0) = 0).
      { rewrite <- seq_shift, zsum_map. rewrite (zsum_ext _ _ _ (fun _ => 0)).
        - clear. induction (seq 0 (length l)); cbn; auto.
        - intros i Hi. apply in_seq in Hi. cbn [nth]. destruct (cond (nth i l dflt)) eqn:E; [|reflexivity].
          exfalso. rewrite Forall_forall in Hx. rewrite (Hc x (nth i l dflt)) in Ex; [discriminate| |exact E].
          apply Hx. apply nth_In. lia. }
      rewrite E. lia.
Qed.

Lemma nth_skipn : forall A (d : A) i l k, nth k (skipn i l) d = nth (i + k) l d.
Proof. intros A d i. induction i as [|i IH]; intros [|x l] k; cbn; auto. destruct k; reflexivity. Qed.
Lemma skipn_add : forall A i k (l : list A), skipn k (skipn i l) = skipn (i + k) l.
Proof. intros A i. induction i as [|i IH]; intros k [|x l]; cbn; auto. destruct k; reflexivity. Qed.

Section Triple.
Variables (ca : Z -> bool) (cb : Z -> Z -> bool) (cc : Z -> Z -> Z -> bool).
Hypothesis Ha : forall a a', a <= a' -> ca a' = true -> ca a = true.
Hypothesis Hb : forall a b b', b <= b' -> cb a b' = true -> cb a b = true.
Hypothesis Hc : forall a b c c', c <= c' -> cc a b c' = true -> cc a b c = true.
Variable orbs : list sporb.
Hypothesis Ho : ordered orbs.
Variable X : Type.
(** what is counted for a triple of orbitals *)
Variable items : Z -> Z -> Z -> list X.
Variable body : Z -> Z -> Z -> Z -> outcome Z.
Hypothesis Hbody : forall a b c s, In a orbs -> In b orbs -> In c orbs ->
  body (snd a) (snd b) (snd c) s = Ok (s + Z.of_nat (length (items (snd a) (snd b) (snd c)))).
Let n := length orbs.
Let o i := nth i orbs dflt.

Definition everything : list (nat * nat * nat * X) :=
  flat_map (fun i => if ca (fst (o i)) then
    flat_map (fun k => if cb (fst (o i)) (fst (o (i + k))) then
      flat_map (fun m => if cc (fst (o i)) (fst (o (i + k))) (fst (o (i + k + m))) then
        map (fun x => (i, i + k, i + k + m, x)%nat) (items (snd (o i)) (snd (o (i + k))) (snd (o (i + k + m)))) else [])
      (seq 0 (n - (i + k))) else []) (seq 0 (n - i)) else []) (seq 0 n).

Lemma triple_count : triple_loop ca cb cc orbs body = Ok (Z.of_nat (length everything)).
Proof.
  unfold triple_loop, everything. rewrite flat_map_len.
  rewrite (orb_loop_sum _ _ (fun a la => zsum (seq 0 (length la)) (fun k => if cb (fst a) (fst (nth k la dflt)) then
      zsum (seq 0 (length (skipn k la))) (fun m => if cc (fst a) (fst (nth k la dflt)) (fst (nth m (skipn k la) dflt)) then
        Z.of_nat (length (items (snd a) (snd (nth k la dflt)) (snd (nth m (skipn k la) dflt)))) else 0) else 0))).
  - f_equal. rewrite Z.add_0_l. apply zsum_ext. intros i Hi. apply in_seq in Hi. unfold o.
    destruct (ca _); [|reflexivity]. rewrite flat_map_len, skipn_length. apply zsum_ext. intros k Hk. apply in_seq in Hk.
    rewrite nth_skipn. destruct (cb _ _); [|reflexivity]. rewrite flat_map_len, skipn_add, skipn_length. apply zsum_ext. intros m Hm.
    rewrite nth_skipn. destruct (cc _ _ _); [|reflexivity]. rewrite map_length. reflexivity.
  - exact Ho.
  - intros a b H. apply Ha. exact H.
  - intros i s Hi Hci.
    rewrite (orb_loop_sum _ _ (fun b lb => zsum (seq 0 (length lb)) (fun m => if cc (fst (nth i orbs dflt)) (fst b) (fst (nth m lb dflt)) then
        Z.of_nat (length (items (snd (nth i orbs dflt)) (snd b) (snd (nth m lb dflt)))) else 0))).
    + reflexivity.
    + apply ordered_skipn. exact Ho.
    + intros a b H. apply Hb. exact H.
    + intros k s' Hk Hck.
      rewrite (orb_loop_sum _ _ (fun c lc => Z.of_nat (length (items (snd (nth i orbs dflt)) (snd (nth k (skipn i orbs) dflt)) (snd c))))).
      * reflexivity.
      * apply ordered_skipn, ordered_skipn. exact Ho.
      * intros a b H. apply Hc. exact H.
      * intros m s'' Hm _. apply Hbody.
        -- apply nth_In. exact Hi.
        -- rewrite nth_skipn. rewrite skipn_length in Hk. apply nth_In. lia.
        -- rewrite !nth_skipn. rewrite !skipn_length in Hm. apply nth_In. lia.
Qed.

Lemma everything_nodup : (forall a b c, NoDup (items a b c)) -> NoDup everything.
Proof.
  intros Hi. unfold everything. apply NoDup_flat_map; [apply seq_NoDup| |].
  - intros i _. destruct (ca _); [|constructor]. apply NoDup_flat_map; [apply seq_NoDup| |].
    + intros k _. destruct (cb _ _); [|constructor]. apply NoDup_flat_map; [apply seq_NoDup| |].
      * intros m _. destruct (cc _ _ _); [|constructor]. apply FinFun.Injective_map_NoDup; [|apply Hi]. intros x y E. injection E. auto.
      * intros m m' z _ _ H H'. destruct (cc _ _ _), (cc _ _ (fst (o (i + k + m')))); try contradiction.
        apply in_map_iff in H, H'. destruct H as (x & <- & _), H' as (y & E & _). injection E. lia.
    + intros k k' z _ _ H H'. destruct (cb _ _), (cb _ (fst (o (i + k')))); try contradiction.
      apply in_flat_map in H, H'. destruct H as (m & _ & H), H' as (m' & _ & H').
      destruct (cc _ _ _), (cc _ (fst (o (i + k'))) _); try contradiction.
      apply in_map_iff in H, H'. destruct H as (x & <- & _), H' as (y & E & _). injection E. lia.
  - intros i i' z _ _ H H'. destruct (ca _), (ca (fst (o i'))); try contradiction.
    apply in_flat_map in H, H'. destruct H as (k & _ & H), H' as (k' & _ & H').
    destruct (cb _ _), (cb (fst (o i')) _); try contradiction.
    apply in_flat_map in H, H'. destruct H as (m & _ & H), H' as (m' & _ & H').
    destruct (cc _ _ _), (cc (fst (o i')) _ _); try contradiction.
    apply in_map_iff in H, H'. destruct H as (x & <- & _), H' as (y & E & _). injection E. lia.
Qed.

Lemma nth_error_o : forall i a, nth_error orbs i = Some a <-> (i < n)%nat /\ a = o i.
Proof.
  intros i a. unfold o, n. split.
  - intros H. split; [apply nth_error_Some; congruence|]. symmetry. apply nth_error_nth. exact H.
  - intros [H ->]. apply nth_error_nth'. exact H.
Qed.
Lemma in_everything : forall i k m x, In (i, k, m, x) everything <->
  three_orbitals (fun a b c => ca a = true /\ cb a b = true /\ cc a b c = true) orbs (fun ja jb jc => In x (items ja jb jc)) i k m.
Proof.
  intros i k m x. unfold everything, three_orbitals. rewrite in_flat_map. split.
  - intros (i0 & Hi & H). apply in_seq in Hi. destruct (ca _) eqn:Ea; [|contradiction].
    apply in_flat_map in H. destruct H as (k0 & Hk & H). apply in_seq in Hk. destruct (cb _ _) eqn:Eb; [|contradiction].
    apply in_flat_map in H. destruct H as (m0 & Hm & H). apply in_seq in Hm. destruct (cc _ _ _) eqn:Ec; [|contradiction].
    apply in_map_iff in H. destruct H as (y & E & Hy).
    assert (i0 = i /\ i0 + k0 = k /\ i0 + k0 + m0 = m /\ y = x)%nat as (-> & <- & <- & ->) by (injection E; auto).
    split; [lia|]. exists (o i), (o (i + k0)), (o (i + k0 + m0)). rewrite !nth_error_o.
    repeat split; auto; lia.
  - intros (Hle & a & b & c & H1 & H2 & H3 & (C1 & C2 & C3) & Hx). apply nth_error_o in H1, H2, H3.
    destruct H1 as [L1 ->], H2 as [L2 ->], H3 as [L3 ->].
    exists i. split; [apply in_seq; lia|]. rewrite C1. apply in_flat_map. exists (k - i)%nat. split; [apply in_seq; lia|].
    replace (i + (k - i))%nat with k by lia. rewrite C2. apply in_flat_map. exists (m - k)%nat. split; [apply in_seq; lia|].
    replace (k + (m - k))%nat with m by lia. rewrite C3. apply in_map_iff. exists x. auto.
Qed.
End Triple.

(** * the orbitals *)
Lemma in_sporbitals : forall K N j, In (N, j) (sporbitals K) <-> 0 <= N <= K /\ Z.odd j = true /\ 1 <= j <= 2 * N + 1.
Proof.
  intros K N j. unfold sporbitals. rewrite in_flat_map. split.
  - intros (N' & HN & H). apply in_zrange in HN. apply in_map_iff in H. destruct H as (i & E & Hi). apply in_zrange in Hi.
    assert (N' = N /\ 2 * i + 1 = j) as [-> <-] by (split; congruence). split; [lia|]. split; [|lia]. rewrite Z.add_comm, Z.odd_add_mul_2. reflexivity.
  - intros (HN & Hj & Hr). exists N. split; [apply in_zrange; lia|]. apply in_map_iff. apply odd_half in Hj. destruct Hj as [i ->].
    exists i. split; [reflexivity|]. apply in_zrange. lia.
Qed.
Lemma StronglySorted_app : forall A (R : A -> A -> Prop) l1 l2, StronglySorted R l1 -> StronglySorted R l2 ->
  (forall x y, In x l1 -> In y l2 -> R x y) -> StronglySorted R (l1 ++ l2).
Proof.
  intros A R l1. induction l1 as [|x l1 IH]; intros l2 S1 S2 H; [exact S2|]. inversion S1; subst. cbn. constructor.
  - apply IH; auto. intros; apply H; [right|]; assumption.
  - apply Forall_app. split; [assumption|]. apply Forall_forall. intros y Hy. apply H; [left; reflexivity|exact Hy].
Qed.
Lemma sporbitals_ordered : forall K, ordered (sporbitals K).
Proof.
  intros K. unfold sporbitals, ordered.
  assert (G : forall l, StronglySorted Z.le l -> StronglySorted (fun a b : sporb => fst a <= fst b) (flat_map (fun N => map (fun i => (N, 2 * i + 1)) (zrange 0 N)) l)).
  { induction l as [|N l IH]; intros S; [constructor|]. inversion S as [|? ? S' F]; subst. cbn [flat_map]. apply StronglySorted_app.
    - clear. induction (zrange 0 N) as [|i r IHr]; cbn; constructor; [exact IHr|]. apply Forall_forall. intros y Hy. apply in_map_iff in Hy.
      destruct Hy as (k & <- & _). cbn. lia.
    - apply IH. exact S'.
    - intros x y Hx Hy. apply in_map_iff in Hx. destruct Hx as (i & <- & _). apply in_flat_map in Hy. destruct Hy as (N' & HN' & Hy).
      apply in_map_iff in Hy. destruct Hy as (i' & <- & _). cbn. rewrite Forall_forall in F. apply F. exact HN'. }
  apply G. unfold zrange. generalize (Z.to_nat (K - 0 + 1)). intros n.
  assert (H : forall s, StronglySorted Z.le (map (fun i => 0 + Z.of_nat i) (seq s n))).
  { induction n as [|n IH]; intros s; cbn; constructor; [apply IH|]. apply Forall_forall. intros y Hy. apply in_map_iff in Hy.
    destruct Hy as (i & <- & Hi). apply in_seq in Hi. lia. }
  apply H.
Qed.

Lemma triangle_true : forall ja jb jc J J1, Z.odd ja = true -> Z.odd jb = true -> Z.odd jc = true -> Z.odd J = true ->
  triangle ja jb (2 * J1) && triangle (2 * J1) jc J = true <-> couples ja jb jc J J1.
Proof.
  intros ja jb jc J J1 Ha Hb Hc HJ. unfold triangle, couples.
  assert (E1 : Z.even (ja + jb + 2 * J1) = true).
  { apply odd_half in Ha, Hb. destruct Ha as [a ->], Hb as [b ->]. replace (2 * a + 1 + (2 * b + 1) + 2 * J1) with (2 * (a + b + 1 + J1)) by ring.
    rewrite Z.even_mul. reflexivity. }
  assert (E2 : Z.even (2 * J1 + jc + J) = true).
  { apply odd_half in Hc, HJ. destruct Hc as [c ->], HJ as [j ->]. replace (2 * J1 + (2 * c + 1) + (2 * j + 1)) with (2 * (J1 + c + j + 1)) by ring.
    rewrite Z.even_mul. reflexivity. }
  rewrite E1, E2, !andb_true_r, !andb_true_iff, !Z.leb_le. tauto.
Qed.

Section Dims.
Variables (ca : Z -> bool) (cb : Z -> Z -> bool) (cc : Z -> Z -> Z -> bool) (cut : Z -> Z -> Z -> Prop).
Hypothesis Ha : forall a a', a <= a' -> ca a' = true -> ca a = true.
Hypothesis Hb : forall a b b', b <= b' -> cb a b' = true -> cb a b = true.
Hypothesis Hc : forall a b c c', c <= c' -> cc a b c' = true -> cc a b c = true.
Hypothesis Hcut : forall a b c, 0 <= a -> 0 <= b -> 0 <= c -> (ca a = true /\ cb a b = true /\ cc a b c = true) <-> cut a b c.

Lemma dims_total : forall K J l, Z.odd J = true -> lists_all (states cut (sporbitals K) J) l ->
  triple_loop ca cb cc (sporbitals K) (add_couplings J) = Ok (Z.of_nat (length l)).
Proof.
  intros K J l HJ Hl.
  pose (range := fun ja jb jc => let lo := Z.max (Z.abs ((ja - jb) / 2)) (Z.abs ((J - jc) / 2)) in
                  let hi := Z.min ((ja + jb) / 2) ((J + jc) / 2) in zrange lo hi).
  assert (Hrange : forall a b c, In a (sporbitals K) -> In b (sporbitals K) -> In c (sporbitals K) ->
     couplings (snd a) (snd b) (snd c) J = Ok (Z.of_nat (length (range (snd a) (snd b) (snd c))))
     /\ forall x, In x (range (snd a) (snd b) (snd c)) <-> couples (snd a) (snd b) (snd c) J x).
  { intros [N1 j1] [N2 j2] [N3 j3] H1 H2 H3. apply in_sporbitals in H1, H2, H3. cbn [snd].
    destruct H1 as (_ & O1 & _), H2 as (_ & O2 & _), H3 as (_ & O3 & _).
    assert (E : forall x, In x (range j1 j2 j3) <-> couples j1 j2 j3 J x).
    { intros x. unfold range. rewrite in_zrange. apply odd_half in O1, O2, O3, HJ. destruct O1 as [a ->], O2 as [b ->], O3 as [c ->], HJ as [j ->].
      unfold couples.
      replace (2 * a + 1 - (2 * b + 1)) with ((a - b) * 2) by ring. replace (2 * j + 1 - (2 * c + 1)) with ((j - c) * 2) by ring.
      replace (2 * a + 1 + (2 * b + 1)) with ((a + b + 1) * 2) by ring. replace (2 * j + 1 + (2 * c + 1)) with ((j + c + 1) * 2) by ring.
      rewrite !Z.div_mul by lia. lia. }
    split; [|exact E]. apply couplings_count; auto. split; [apply NoDup_zrange|exact E]. }
  rewrite (triple_count ca cb cc Ha Hb Hc (sporbitals K) (sporbitals_ordered K) Z range (add_couplings J)).
  - do 2 f_equal. eapply lists_all_length; [|exact Hl]. split.
    + apply everything_nodup. intros; apply NoDup_zrange.
    + intros [[[i k] m] x]. rewrite in_everything. unfold states, three_orbitals. split.
      * intros (Hle & a & b & c & H1 & H2 & H3 & HC & Hx). split; [exact Hle|]. exists a, b, c. repeat (split; [assumption|]).
        pose proof (nth_error_In _ _ H1) as I1. pose proof (nth_error_In _ _ H2) as I2. pose proof (nth_error_In _ _ H3) as I3. split.
        -- apply Hcut; [..|exact HC].
           ++ destruct a. apply in_sporbitals in I1. cbn. lia. ++ destruct b. apply in_sporbitals in I2. cbn. lia. ++ destruct c. apply in_sporbitals in I3. cbn. lia.
        -- apply Hrange; assumption.
      * intros (Hle & a & b & c & H1 & H2 & H3 & HC & Hx). split; [exact Hle|]. exists a, b, c. repeat (split; [assumption|]).
        pose proof (nth_error_In _ _ H1) as I1. pose proof (nth_error_In _ _ H2) as I2. pose proof (nth_error_In _ _ H3) as I3. split.
        -- apply Hcut; [..|exact HC].
           ++ destruct a. apply in_sporbitals in I1. cbn. lia. ++ destruct b. apply in_sporbitals in I2. cbn. lia. ++ destruct c. apply in_sporbitals in I3. cbn. lia.
        -- apply Hrange; assumption.
  - intros a b c s H1 H2 H3. unfold add_couplings. rewrite (proj1 (Hrange a b c H1 H2 H3)). reflexivity.
Qed.

Lemma dims_J1 : forall K J1 J l, Z.odd J = true -> lists_all (states_J1 cut (sporbitals K) J1 J) l ->
  triple_loop ca cb cc (sporbitals K) (add_if_coupled J1 J) = Ok (Z.of_nat (length l)).
Proof.
  intros K J1 J l HJ Hl.
  pose (items := fun ja jb jc => if triangle ja jb (2 * J1) && triangle (2 * J1) jc J then [tt] else []).
  rewrite (triple_count ca cb cc Ha Hb Hc (sporbitals K) (sporbitals_ordered K) unit items (add_if_coupled J1 J)).
  - do 2 f_equal. rewrite <- (map_length (fun q => (q, tt)) l). eapply lists_all_length with (P := fun q => states_J1 cut (sporbitals K) J1 J (fst q)).
    + split.
      * apply everything_nodup. intros. unfold items. destruct (_ && _); [constructor; [intros []|constructor]|constructor].
      * intros [[[i k] m] []]. rewrite in_everything. unfold states_J1, three_orbitals. cbn [fst].
        assert (Hi : forall a b c, In a (sporbitals K) -> In b (sporbitals K) -> In c (sporbitals K) ->
          In tt (items (snd a) (snd b) (snd c)) <-> couples (snd a) (snd b) (snd c) J J1).
        { intros [N1 j1] [N2 j2] [N3 j3] H1 H2 H3. apply in_sporbitals in H1, H2, H3. cbn [snd].
          rewrite <- triangle_true by tauto. unfold items. destruct (_ && _); cbn; [tauto|]. split; [tauto|discriminate]. }
        split.
        -- intros (Hle & a & b & c & H1 & H2 & H3 & HC & Hx). split; [exact Hle|]. exists a, b, c. repeat (split; [assumption|]).
           pose proof (nth_error_In _ _ H1) as I1. pose proof (nth_error_In _ _ H2) as I2. pose proof (nth_error_In _ _ H3) as I3. split.
           ++ apply Hcut; [..|exact HC].
              ** destruct a. apply in_sporbitals in I1. cbn. lia. ** destruct b. apply in_sporbitals in I2. cbn. lia. ** destruct c. apply in_sporbitals in I3. cbn. lia.
           ++ apply Hi; assumption.
        -- intros (Hle & a & b & c & H1 & H2 & H3 & HC & Hx). split; [exact Hle|]. exists a, b, c. repeat (split; [assumption|]).
           pose proof (nth_error_In _ _ H1) as I1. pose proof (nth_error_In _ _ H2) as I2. pose proof (nth_error_In _ _ H3) as I3. split.
           ++ apply Hcut; [..|exact HC].
              ** destruct a. apply in_sporbitals in I1. cbn. lia. ** destruct b. apply in_sporbitals in I2. cbn. lia. ** destruct c. apply in_sporbitals in I3. cbn. lia.
           ++ apply Hi; assumption.
    + destruct Hl as [N I]. split.
      * apply FinFun.Injective_map_NoDup; [|exact N]. intros x y E. injection E. auto.
      * intros [q []]. cbn [fst]. rewrite in_map_iff, <- I. split; [intros (q' & E & H); injection E as <-; exact H|eauto].
  - intros a b c s H1 H2 H3. unfold add_if_coupled, items. destruct (_ && _); cbn [length]; f_equal; lia.
Qed.
End Dims.

Lemma one_body_total : forall K N J l, Z.odd J = true -> lists_all (states (each_within N) (sporbitals K) J) l ->
  dim_one (sporbitals K) N J = Ok (Z.of_nat (length l)).
Proof.
  intros K N J l HJ Hl. apply (dims_total _ _ _ (each_within N)); auto.
  - intros a a' H H'. apply Z.leb_le in H'. apply Z.leb_le. lia.
  - intros a b b' H H'. apply Z.leb_le in H'. apply Z.leb_le. lia.
  - intros a b c c' H H'. apply Z.leb_le in H'. apply Z.leb_le. lia.
  - intros a b c _ _ _. unfold each_within. rewrite !Z.leb_le. tauto.
Qed.
Lemma one_body_J1 : forall K N J1 J l, Z.odd J = true -> lists_all (states_J1 (each_within N) (sporbitals K) J1 J) l ->
  dim_one_J1 (sporbitals K) N J1 J = Ok (Z.of_nat (length l)).
Proof.
  intros K N J1 J l HJ Hl. apply (dims_J1 _ _ _ (each_within N)); auto.
  - intros a a' H H'. apply Z.leb_le in H'. apply Z.leb_le. lia.
  - intros a b b' H H'. apply Z.leb_le in H'. apply Z.leb_le. lia.
  - intros a b c c' H H'. apply Z.leb_le in H'. apply Z.leb_le. lia.
  - intros a b c _ _ _. unfold each_within. rewrite !Z.leb_le. tauto.
Qed.
Lemma three_body_total : forall K N J l, Z.odd J = true -> lists_all (states (sum_within N) (sporbitals K) J) l ->
  dim_three (sporbitals K) N J = Ok (Z.of_nat (length l)).
Proof.
  intros K N J l HJ Hl. apply (dims_total _ _ _ (sum_within N)); auto.
  - intros a a' H H'. apply Z.leb_le in H'. apply Z.leb_le. lia.
  - intros a b b' H H'. apply Z.leb_le in H'. apply Z.leb_le. lia.
  - intros a b c c' H H'. apply Z.leb_le in H'. apply Z.leb_le. lia.
  - intros a b c H1 H2 H3. unfold sum_within. rewrite !Z.leb_le. lia.
Qed.
Lemma three_body_J1 : forall K N J1 J l, Z.odd J = true -> lists_all (states_J1 (sum_within N) (sporbitals K) J1 J) l ->
  dim_three_J1 (sporbitals K) N J1 J = Ok (Z.of_nat (length l)).
Proof.
  intros K N J1 J l HJ Hl. apply (dims_J1 _ _ _ (sum_within N)); auto.
  - intros a a' H H'. apply Z.leb_le in H'. apply Z.leb_le. lia.
  - intros a b b' H H'. apply Z.leb_le in H'. apply Z.leb_le. lia.
  - intros a b c c' H H'. apply Z.leb_le in H'. apply Z.leb_le. lia.
  - intros a b c H1 H2 H3. unfold sum_within. rewrite !Z.leb_le. lia.
Qed.

(** * OrbitalDimension *)
Lemma orbital_dimension_count : forall N j l, Z.odd j = true -> 1 <= j <= 2 * N + 3 ->
  lists_all (fun o => In o (sporbitals N) /\ snd o = j) l -> orbital_dimension N j = Ok (Z.of_nat (length l)).
Proof.
  intros N j l Hj Hr Hl. apply odd_half in Hj. destruct Hj as [i ->]. unfold orbital_dimension.
  replace (2 * N - (2 * i + 1) + 3) with (2 * (N - i + 1)) by ring. rewrite ivalue_even. f_equal.
  assert (A : lists_all (fun o => In o (sporbitals N) /\ snd o = 2 * i + 1) (map (fun M => (M, 2 * i + 1)) (zrange i N))).
  { split; [apply FinFun.Injective_map_NoDup; [intros x y E; congruence|apply NoDup_zrange]|].
    intros [M j]. rewrite in_map_iff, in_sporbitals. cbn [snd]. split.
    - intros (M' & E & H). apply in_zrange in H. assert (M' = M /\ 2 * i + 1 = j) as [-> <-] by (split; congruence).
      split; [|reflexivity]. split; [lia|]. split; [rewrite Z.add_comm, Z.odd_add_mul_2; reflexivity|lia].
    - intros [(H1 & H2 & H3) ->]. exists M. split; [reflexivity|]. apply in_zrange. lia. }
  rewrite <- (lists_all_length _ _ _ _ A Hl). rewrite map_length, zrange_len. lia.
Qed.
