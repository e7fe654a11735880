(** Proofs about oscillator brackets. *)
From Coq Require Import List ZArith Reals Bool Lia Lra.
From Verif Require Import Base OscModel OscFinal MoshModel.
Import ListNotations.
Open Scope Z_scope.
Open Scope outcome_scope.

Lemma key_eqb_ok : forall a b, key_eqb a b = true <-> a = b.
Proof.
  intros [] []. unfold key_eqb. cbn. rewrite !andb_true_iff, !Z.eqb_eq. split; [intuition congruence|]. intros H. injection H. intros. subst. tauto.
Qed.
Lemma gfact_ok : forall fmax n, 0 <= n <= fmax -> gfact fmax n = Ok (INR (fact (Z.to_nat n))).
Proof. intros. unfold gfact. replace (0 <=? n) with true by lia. replace (n <=? fmax) with true by lia. reflexivity. Qed.
Lemma sum_over_ok : forall A (l : list A) body, (forall x, In x l -> is_ok (body x)) -> is_ok (sum_over l body).
Proof.
  intros A l body H. unfold sum_over. generalize 0%R. induction l as [|x l IH]; intros s; cbn; [eexists; reflexivity|].
  destruct (H x (or_introl eq_refl)) as [t Ht]. rewrite Ht. cbn. apply IH. intros y Hy. apply H. right. exact Hy.
Qed.
Lemma in_by_two : forall a b q, In q (by_two a b) -> a <= q <= b /\ Z.even (q - a) = true.
Proof.
  intros a b q H. unfold by_two in H. apply in_map_iff in H. destruct H as (i & <- & Hi). apply in_seq in Hi.
  pose proof (Z_div_mod_eq_full (b - a) 2). pose proof (Z.mod_pos_bound (b - a) 2). split; [lia|].
  replace (a + 2 * Z.of_nat i - a) with (2 * Z.of_nat i) by lia. apply Z.even_spec. exists (Z.of_nat i). reflexivity.
Qed.
(** ranges in which all factorials of the A coefficient have arguments from 0 to [M] *)
Lemma even_quot : forall x, Z.even x = true -> Z.quot x 2 * 2 = x.
Proof.
  intros x H. apply Z.even_spec in H. destruct H as [y ->]. rewrite (Z.mul_comm 2 y), Z.quot_mul by lia. reflexivity.
Qed.
Lemma a_range : forall l1 d1 l2 d2 kappa q, 0 <= l1 -> 0 <= d1 -> 0 <= l2 -> 0 <= d2 -> Z.even (l1 + d1 + (l2 + d2)) = true ->
  Z.abs (l1 - d1) <= kappa -> Z.abs (l2 - d2) <= kappa ->
  In q (by_two (kappa + Z.rem (kappa + d1 + l1) 2) (Z.min (d1 + l1) (d2 + l2))) ->
  kappa <= q <= d1 + l1 /\ q <= d2 + l2 /\ Z.even (d1 - l1 + q) = true /\ Z.even (d1 + l1 - q) = true /\ Z.even (d2 - l2 + q) = true /\ Z.even (d2 + l2 - q) = true.
Proof.
  intros l1 d1 l2 d2 kappa q H1 H2 H3 H4 He Hk1 Hk2 Hq. apply in_by_two in Hq. destruct Hq as [Hq Hp].
  rewrite Z.rem_mod_nonneg in Hq, Hp by lia. pose proof (Z.mod_pos_bound (kappa + d1 + l1) 2) as Hm.
  pose proof (Z_div_mod_eq_full (kappa + d1 + l1) 2) as Hd. split; [lia|]. split; [lia|].
  apply Z.even_spec in Hp. destruct Hp as [y Hy]. apply Z.even_spec in He. destruct He as [z Hz].
  rewrite !Z.even_spec. repeat split.
  - exists ((kappa + d1 + l1) / 2 + (kappa + d1 + l1) mod 2 - l1 + y). lia.
  - exists (d1 + l1 - (kappa + d1 + l1) / 2 - (kappa + d1 + l1) mod 2 - y). lia.
  - exists ((kappa + d1 + l1) / 2 + (kappa + d1 + l1) mod 2 + y - z + d2). lia.
  - exists (z - (kappa + d1 + l1) / 2 - (kappa + d1 + l1) mod 2 - y). lia.
Qed.
Ltac fact_step fmax := match goal with |- context [bind (gfact fmax ?n) _] => rewrite (gfact_ok fmax n) by lia; cbn [bind] end.
Lemma a_ok : forall fmax l1 d1 l2 d2 kappa, 0 <= l1 -> 0 <= d1 -> 0 <= l2 -> 0 <= d2 -> Z.even (l1 + d1 + (l2 + d2)) = true ->
  Z.abs (l1 - d1) <= kappa -> Z.abs (l2 - d2) <= kappa -> kappa <= l1 + d1 -> kappa <= l2 + d2 ->
  2 * l1 <= fmax -> 2 * d1 <= fmax -> 2 * l2 <= fmax -> 2 * d2 <= fmax -> l1 + d1 + (l2 + d2) + 1 <= fmax ->
  is_ok (a_coefficient fmax l1 d1 l2 d2 kappa).
Proof.
  intros fmax l1 d1 l2 d2 kappa. intros. unfold a_coefficient. repeat fact_step fmax.
  match goal with |- context [sum_over ?l ?b] => assert (Hs : is_ok (sum_over l b)) end.
  { apply sum_over_ok. intros q Hq. apply a_range in Hq; try assumption. destruct Hq as (Hq & Hq2 & E1 & E2 & E3 & E4).
    apply even_quot in E1, E2, E3, E4. unfold a_term. repeat fact_step fmax. eexists. reflexivity. }
  destruct Hs as [v Hv]. rewrite Hv. eexists. reflexivity.
Qed.
Lemma seed_ok : forall fmax u6j m1 d1 m2 d2 l1 l2 L, 0 <= m1 -> 0 <= d1 -> 0 <= m2 -> 0 <= d2 -> 0 <= l1 -> 0 <= l2 ->
  2 * m1 + d1 + 2 * m2 + d2 = l1 + l2 -> 2 * (l1 + l2) + 1 <= fmax -> is_ok (seed fmax u6j m1 d1 m2 d2 l1 l2 L).
Proof.
  intros fmax u6j m1 d1 m2 d2 l1 l2 L. intros. unfold seed. repeat fact_step fmax.
  match goal with |- context [sum_over ?l ?b] => assert (Hs : is_ok (sum_over l b)) end.
  { apply sum_over_ok. intros kappa Hk. apply in_zrange in Hk.
    assert (Ha : is_ok (a_coefficient fmax l1 d1 l2 d2 kappa)).
    { apply a_ok; try lia. apply Z.even_spec. exists (l1 + l2 - m1 - m2). lia. }
    destruct Ha as [v Hv]. rewrite Hv. eexists. reflexivity. }
  destruct Hs as [v Hv]. rewrite Hv. eexists. reflexivity.
Qed.

Section PROOF.
Variable fmax : Z.
Variables w6j u6j : Z -> Z -> Z -> Z -> Z -> Z -> R.
Notation bracket := (bracket fmax w6j u6j).
Notation terms := (terms w6j).
Notation request := (request fmax w6j u6j).

(** non-negative arguments and equal numbers of quanta *)
Definition proper (k : key) : Prop := negative k = false /\ quanta_dot k = quanta k.
Definition need (k : key) : Z := kn1 k + kn2 k + 1 + (if kn2 k =? 0 then 0 else 1).
Lemma negative_false : forall k, negative k = false <->
  0 <= n1_dot k /\ 0 <= l1_dot k /\ 0 <= n2_dot k /\ 0 <= l2_dot k /\ 0 <= kn1 k /\ 0 <= kl1 k /\ 0 <= kn2 k /\ 0 <= kl2 k.
Proof. intros k. unfold negative. rewrite !orb_false_iff, !Z.ltb_ge. tauto. Qed.
Lemma terms_proper : forall k c x k', proper k -> kn1 k <> 0 -> In (c, x, k') (terms k) -> c = true ->
  proper k' /\ quanta k' <= quanta k /\ kn1 k' = kn1 k - 1 /\ kn2 k' = kn2 k.
Proof.
  intros k c x k' [Hn Hq] H0 Hin Hc. apply negative_false in Hn. unfold terms, quanta, quanta_dot in *. cbn in Hin.
  destruct Hin as [Hin|[Hin|[Hin|[Hin|[Hin|[Hin|[]]]]]]]; injection Hin as <- _ <-;
    rewrite ?andb_true_iff, ?negb_true_iff, ?Z.eqb_neq in Hc; unfold proper; rewrite negative_false; unfold quanta, quanta_dot; cbn [n1_dot l1_dot n2_dot l2_dot kn1 kl1 kn2 kl2 kL]; lia.
Qed.
(** * Depth *)
Lemma add_terms_no_fuel : forall call l acc s, (forall c x k, In (c, x, k) l -> c = true -> forall s, call k s <> MFuel) -> add_terms call l acc s <> MFuel.
Proof.
  intros call l. induction l as [|[[c x] k] l IH]; intros acc s H; cbn [add_terms]; [discriminate|].
  unfold only_if. destruct c.
  - specialize (H true x k (or_introl eq_refl) eq_refl s) as H1. destruct (call k s) as [v s'| |]; cbn [mbind]; try congruence.
    apply IH. intros c y k' Hin. apply (H c y k'). right. exact Hin.
  - cbn [mbind]. apply IH. intros c y k' Hin. apply (H c y k'). right. exact Hin.
Qed.
Lemma bracket_no_fuel : forall depth k s, 1 <= Z.of_nat depth -> (proper k -> need k <= Z.of_nat depth) -> bracket depth k s <> MFuel.
Proof.
  induction depth as [|depth IH]; intros k s H1 H; [lia|]. cbn [MoshModel.bracket].
  destruct (negative k) eqn:En; [discriminate|]. cbn [cache asked]. destruct (seek k (cache s)); [discriminate|].
  destruct (Z.eqb_spec (quanta_dot k) (quanta k)) as [Eq|]; cbn [negb orb]; [|discriminate].
  assert (Hp : proper k) by (split; assumption). specialize (H Hp). unfold need in H. apply negative_false in En.
  destruct (_ || _) eqn:Et; [discriminate|]. destruct ((kn1 k =? 0) && (kn2 k =? 0)) eqn:E0; [destruct (seed _ _ _ _ _ _ _ _ _); discriminate|].
  destruct (Z.eqb_spec (kn1 k) 0) as [E1|E1].
  - cbn [andb] in E0. rewrite E0 in H. apply Z.eqb_neq in E0.
    match goal with |- context [mbind (bracket depth ?k2 ?s2) _] => assert (Hb : bracket depth k2 s2 <> MFuel) end.
    { apply IH; [lia|]. intros _. unfold need. cbn. rewrite E1. cbn. lia. }
    destruct (bracket depth _ _); cbn [mbind]; congruence.
  - match goal with |- context [mbind (add_terms ?c ?l ?a ?s2) _] => assert (Hb : add_terms c l a s2 <> MFuel) end.
    { apply add_terms_no_fuel. intros c x k' Hin Hc s'. destruct (terms_proper k c x k' Hp E1 Hin Hc) as (Hp' & _ & Hn1 & Hn2).
      apply IH; [destruct (kn2 k =? 0); lia|]. intros _. unfold need. rewrite Hn1, Hn2. lia. }
    destruct (add_terms _ _ _ _); cbn [mbind]; congruence.
Qed.
Lemma request_no_fuel : forall k s, request k s <> MFuel.
Proof.
  intros k s. unfold MoshModel.request. apply bracket_no_fuel; unfold enough; [lia|]. intros [Hn _]. apply negative_false in Hn. unfold need. destruct (kn2 k =? 0); lia.
Qed.
(** * No abort up to a number of quanta *)
Lemma add_terms_no_abort : forall call l acc s, (forall c x k, In (c, x, k) l -> c = true -> forall s, call k s <> MAbort) -> add_terms call l acc s <> MAbort.
Proof.
  intros call l. induction l as [|[[c x] k] l IH]; intros acc s H; cbn [add_terms]; [discriminate|].
  unfold only_if. destruct c.
  - specialize (H true x k (or_introl eq_refl) eq_refl s) as H1. destruct (call k s) as [v s'| |]; cbn [mbind]; try congruence.
    apply IH. intros c y k' Hin. apply (H c y k'). right. exact Hin.
  - cbn [mbind]. apply IH. intros c y k' Hin. apply (H c y k'). right. exact Hin.
Qed.
Lemma bracket_no_abort : forall depth k s, 2 * quanta k + 1 <= fmax -> bracket depth k s <> MAbort.
Proof.
  induction depth as [|depth IH]; intros k s H; [discriminate|]. cbn [MoshModel.bracket].
  destruct (negative k) eqn:En; [discriminate|]. cbn [cache asked]. destruct (seek k (cache s)); [discriminate|].
  destruct (Z.eqb_spec (quanta_dot k) (quanta k)) as [Eq|]; cbn [negb orb]; [|discriminate].
  assert (Hp : proper k) by (split; assumption). apply negative_false in En.
  destruct (_ || _) eqn:Et; [discriminate|]. destruct ((kn1 k =? 0) && (kn2 k =? 0)) eqn:E0.
  - apply andb_true_iff in E0. rewrite !Z.eqb_eq in E0. unfold quanta_dot, quanta in *.
    match goal with |- context [seed ?a ?b ?c ?d ?e ?f ?g ?h ?i] => destruct (seed_ok a b c d e f g h i) as [v Hv]; try lia end.
    rewrite Hv. discriminate.
  - destruct (Z.eqb_spec (kn1 k) 0) as [E1|E1].
    + match goal with |- context [mbind (bracket depth ?k2 ?s2) _] => assert (Hb : bracket depth k2 s2 <> MAbort) end.
      { apply IH. unfold quanta in *. cbn [n1_dot l1_dot n2_dot l2_dot kn1 kl1 kn2 kl2 kL]. lia. }
      destruct (bracket depth _ _); cbn [mbind]; congruence.
    + match goal with |- context [mbind (add_terms ?c ?l ?a ?s2) _] => assert (Hb : add_terms c l a s2 <> MAbort) end.
      { apply add_terms_no_abort. intros c x k' Hin Hc s'. destruct (terms_proper k c x k' Hp E1 Hin Hc) as (Hp' & Hle & _). apply IH. lia. }
      destruct (add_terms _ _ _ _); cbn [mbind]; congruence.
Qed.
(** * Brackets asked for *)
Definition below (top k : key) : Prop := proper k /\ quanta k <= quanta top.
Lemma add_terms_asked : forall top call l acc s v s',
  (forall c x k, In (c, x, k) l -> c = true -> forall s v s', call k s = MOk v s' -> exists new, asked s' = new ++ asked s /\ Forall (below top) new) ->
  add_terms call l acc s = MOk v s' -> exists new, asked s' = new ++ asked s /\ Forall (below top) new.
Proof.
  intros top call l. induction l as [|[[c x] k] l IH]; intros acc s v s' H E; cbn [add_terms] in E.
  { injection E as _ <-. exists []. split; [reflexivity|constructor]. }
  assert (Ht : forall c0 x0 k0, In (c0, x0, k0) l -> c0 = true -> forall s v s', call k0 s = MOk v s' -> exists new, asked s' = new ++ asked s /\ Forall (below top) new).
  { intros c0 x0 k0 Hin. apply (H c0 x0 k0). right. exact Hin. }
  unfold only_if in E. destruct c.
  - destruct (call k s) as [w s1| |] eqn:Ec; cbn [mbind] in E; try discriminate.
    destruct (H true x k (or_introl eq_refl) eq_refl s w s1 Ec) as (n1 & E1 & F1). destruct (IH _ _ _ _ Ht E) as (n2 & E2 & F2).
    exists (n2 ++ n1). split; [rewrite E2, E1, app_assoc; reflexivity|apply Forall_app; auto].
  - cbn [mbind] in E. exact (IH _ _ _ _ Ht E).
Qed.
Lemma below_trans : forall a b c, quanta b <= quanta a -> below b c -> below a c.
Proof. intros a b c H [H1 H2]. split; [exact H1|lia]. Qed.
Lemma bracket_asked : forall depth k s v s', proper k -> bracket depth k s = MOk v s' -> exists new, asked s' = new ++ asked s /\ Forall (below k) new.
Proof.
  induction depth as [|depth IH]; intros k s v s' Hp E; [discriminate|]. cbn [MoshModel.bracket] in E.
  assert (Hk : below k k) by (split; [exact Hp|lia]).
  assert (Hone : exists new, k :: asked s = new ++ asked s /\ Forall (below k) new) by (exists [k]; split; [reflexivity|repeat constructor; apply Hp || lia]).
  destruct Hp as [Hn Hq]. rewrite Hn in E. cbn [cache asked] in E.
  destruct (seek k (cache s)) as [w|]; [injection E as _ <-; exact Hone|].
  match type of E with mbind ?m _ = _ => destruct m as [w s1| |] eqn:Em; cbn [mbind] in E; try discriminate end.
  injection E as _ <-. cbn [asked].
  destruct (_ || _ || _) eqn:Et; [injection Em as _ <-; exact Hone|].
  destruct ((kn1 k =? 0) && (kn2 k =? 0)) eqn:E0.
  - destruct (seed _ _ _ _ _ _ _ _ _) in Em; try discriminate. injection Em as _ <-. exact Hone.
  - destruct (Z.eqb_spec (kn1 k) 0) as [E1|E1].
    + match type of Em with mbind ?m _ = _ => destruct m as [w2 s2| |] eqn:Em2; cbn [mbind] in Em; try discriminate end. injection Em as _ <-.
      apply IH in Em2.
      * destruct Em2 as (new & En & Fn). cbn [asked] in En. exists (new ++ [k]). split; [rewrite En, <- app_assoc; reflexivity|].
        apply Forall_app. split; [|repeat constructor; [exact Hn|exact Hq|lia]]. eapply Forall_impl; [|exact Fn]. intros a Ha.
        eapply below_trans; [|exact Ha]. unfold quanta. cbn [n1_dot l1_dot n2_dot l2_dot kn1 kl1 kn2 kl2 kL]. lia.
      * split; [apply negative_false; apply negative_false in Hn; cbn [n1_dot l1_dot n2_dot l2_dot kn1 kl1 kn2 kl2 kL]; lia|]. unfold quanta, quanta_dot in *. cbn [n1_dot l1_dot n2_dot l2_dot kn1 kl1 kn2 kl2 kL]. lia.
    + match type of Em with mbind ?m _ = _ => destruct m as [w2 s2| |] eqn:Em2; cbn [mbind] in Em; try discriminate end. injection Em as _ <-.
      apply (add_terms_asked k) in Em2.
      * destruct Em2 as (new & En & Fn). cbn [asked] in En. exists (new ++ [k]). split; [rewrite En, <- app_assoc; reflexivity|].
        apply Forall_app. split; [exact Fn|]. repeat constructor; [exact Hn|exact Hq|lia].
      * intros c x k' Hin Hc s0 v0 s0' E'. destruct (terms_proper k c x k' (conj Hn Hq) E1 Hin Hc) as (Hp' & Hle & _).
        destruct (IH _ _ _ _ Hp' E') as (new & En & Fn). exists new. split; [exact En|]. eapply Forall_impl; [|exact Fn]. intros a. apply below_trans. exact Hle.
Qed.
(** a request outside the selection rules asks for nothing else *)
Lemma request_forbidden : forall k s, seek k (cache s) = None -> quanta_dot k <> quanta k \/ allowed_triangle (l1_dot k) (l2_dot k) (kL k) = false \/ allowed_triangle (kl1 k) (kl2 k) (kL k) = false ->
  exists s', request k s = MOk 0%R s' /\ asked s' = k :: asked s.
Proof.
  intros k s Hs H. unfold MoshModel.request, enough. replace (Z.to_nat _) with (S (Z.to_nat (Z.max 0 (kn1 k) + Z.max 0 (kn2 k) + 1))) by lia. cbn [MoshModel.bracket].
  destruct (negative k); [eexists; split; reflexivity|]. cbn [cache asked]. rewrite Hs.
  assert (E : negb (quanta_dot k =? quanta k) || negb (allowed_triangle (l1_dot k) (l2_dot k) (kL k)) || negb (allowed_triangle (kl1 k) (kl2 k) (kL k)) = true).
  { rewrite !orb_true_iff, !negb_true_iff, Z.eqb_neq. tauto. }
  rewrite E. cbn [mbind]. eexists. split; reflexivity.
Qed.

(** * The cache *)
Inductive pres := POk (v : R) | PAbort | PFuel.
Fixpoint padd (call : key -> pres) (l : list (bool * R * key)) (acc : R) : pres :=
  match l with
  | [] => POk acc
  | (c, x, k) :: l' => match (if c then match call k with POk v => POk (x * v)%R | r => r end else POk 0%R) with POk v => padd call l' (acc + v)%R | r => r end
  end.
(** evaluation without a cache *)
Fixpoint pure (depth : nat) (k : key) : pres :=
  match depth with
  | O => PFuel
  | S depth =>
    if negative k then POk 0%R else
    if negb (quanta_dot k =? quanta k) || negb (allowed_triangle (l1_dot k) (l2_dot k) (kL k)) || negb (allowed_triangle (kl1 k) (kl2 k) (kL k)) then POk 0%R
    else if (kn1 k =? 0) && (kn2 k =? 0) then
      match seed fmax u6j (n1_dot k) (l1_dot k) (n2_dot k) (l2_dot k) (kl1 k) (kl2 k) (kL k) with Ok v => POk v | _ => PAbort end
    else if kn1 k =? 0 then
      match pure depth (K (n1_dot k) (l1_dot k) (n2_dot k) (l2_dot k) (kn2 k) (kl2 k) (kn1 k) (kl1 k) (kL k)) with
      | POk v => POk (parity_sign (l2_dot k - kL k) * v)%R | r => r end
    else match padd (pure depth) (terms k) 0%R with POk v => POk (1 / sqrt (IZR (kn1 k) * (IZR (kn1 k) + IZR (kl1 k) + 1 / 2)) * v)%R | r => r end
  end.
Lemma padd_mono : forall f g l acc, (forall k, f k <> PFuel -> g k = f k) -> padd f l acc <> PFuel -> padd g l acc = padd f l acc.
Proof.
  intros f g l. induction l as [|[[c x] k] l IH]; intros acc H Hf; cbn [padd] in *; [reflexivity|]. destruct c.
  - destruct (f k) eqn:Ef; [| |congruence].
    + rewrite H by congruence. rewrite Ef. apply IH; assumption.
    + rewrite H by congruence. rewrite Ef. reflexivity.
  - apply IH; assumption.
Qed.
Lemma pure_mono1 : forall d k, pure d k <> PFuel -> pure (S d) k = pure d k.
Proof.
  induction d as [|d IH]; intros k H; [cbn in H; congruence|]. remember (S d) as e. rewrite Heqe in H at 1. rewrite Heqe at 2. cbn [pure] in *.
  destruct (negative k); [reflexivity|]. destruct (_ || _ || _); [reflexivity|]. destruct (_ && _); [reflexivity|]. destruct (kn1 k =? 0).
  - subst e. match type of H with context [pure d ?k'] => rewrite (IH k'); [reflexivity|] end. intros E. rewrite E in H. congruence.
  - subst e. rewrite (padd_mono (pure d) (pure (S d))); [reflexivity|exact IH|]. intros E. rewrite E in H. congruence.
Qed.
Lemma pure_mono : forall d e k, (d <= e)%nat -> pure d k <> PFuel -> pure e k = pure d k.
Proof. intros d e k H. induction H as [|e H IH]; intros Hf; [reflexivity|]. rewrite pure_mono1; rewrite IH by exact Hf; [reflexivity|exact Hf]. Qed.
Lemma pure_det : forall d e k, pure d k <> PFuel -> pure e k <> PFuel -> pure d k = pure e k.
Proof. intros d e k Hd He. destruct (Nat.le_ge_cases d e); [symmetry|]; apply pure_mono; assumption. Qed.

Definition value (k : key) (r : pres) : Prop := r <> PFuel /\ exists d, pure d k = r.
Definition sound (c : list (key * R)) : Prop := forall k v, seek k c = Some v -> value k (POk v).
Lemma value_det : forall k r r', value k r -> value k r' -> r = r'.
Proof. intros k r r' [Hr [d Hd]] [Hr' [e He]]. rewrite <- Hd, <- He. apply pure_det; congruence. Qed.
Lemma sound_cons : forall k v c, value k (POk v) -> sound c -> sound ((k, v) :: c).
Proof.
  intros k v c Hv Hc k' v' H. unfold seek in H. cbn [find fst] in H. destruct (key_eqb k k') eqn:E.
  - apply key_eqb_ok in E. subst. cbn in H. injection H as <-. exact Hv.
  - apply Hc. exact H.
Qed.
(** what the call returns agrees with evaluation without a cache *)
Definition agrees (k : key) (m : mres) : Prop :=
  match m with MOk v s => value k (POk v) /\ sound (cache s) | MAbort => value k PAbort | MFuel => True end.
Definition tvalue (l : list (bool * R * key)) (acc : R) (r : pres) : Prop := r <> PFuel /\ exists d, padd (pure d) l acc = r.
Lemma add_terms_agrees : forall call, (forall k s, sound (cache s) -> agrees k (call k s)) -> forall l acc s, sound (cache s) ->
  match add_terms call l acc s with MOk v s' => tvalue l acc (POk v) /\ sound (cache s') | MAbort => tvalue l acc PAbort | MFuel => True end.
Proof.
  intros call Hc l. induction l as [|[[c x] k] l IH]; intros acc s Hs; cbn [add_terms].
  { split; [|exact Hs]. split; [discriminate|]. exists 0%nat. reflexivity. }
  unfold only_if. destruct c.
  - specialize (Hc k s Hs). destruct (call k s) as [v s1| |]; cbn [mbind agrees] in *; [|destruct Hc as [Hf [d Hd]]; split; [exact Hf|exists d; cbn [padd]; rewrite Hd; reflexivity]|exact I].
    destruct Hc as [[Hv [d Hd]] Hs1]. specialize (IH (acc + x * v)%R s1 Hs1).
    assert (Hl : forall r, tvalue l (acc + x * v)%R r -> tvalue ((true, x, k) :: l) acc r).
    { intros r [Hr [e He]]. split; [exact Hr|]. exists (Nat.max d e). cbn [padd]. rewrite (pure_mono d) by (lia || congruence). rewrite Hd.
      rewrite (padd_mono (pure e)); [exact He|intros k0; apply pure_mono; lia|congruence]. }
    destruct (add_terms _ _ _ _); [destruct IH; auto|auto|exact I].
  - cbn [mbind]. specialize (IH (acc + 0)%R s Hs).
    assert (Hl : forall r, tvalue l (acc + 0)%R r -> tvalue ((false, x, k) :: l) acc r).
    { intros r [Hr [e He]]. split; [exact Hr|]. exists e. cbn [padd]. exact He. }
    destruct (add_terms _ _ _ _); [destruct IH; auto|auto|exact I].
Qed.
Lemma bracket_agrees : forall depth k s, sound (cache s) -> agrees k (bracket depth k s).
Proof.
  induction depth as [|depth IH]; intros k s Hs; [exact I|]. cbn [MoshModel.bracket].
  destruct (negative k) eqn:En.
  { split; [|exact Hs]. split; [discriminate|]. exists 1%nat. cbn [pure]. rewrite En. reflexivity. }
  cbn [cache asked]. destruct (seek k (cache s)) as [w|] eqn:Ek; [split; [apply Hs; exact Ek|exact Hs]|].
  match goal with |- agrees k (mbind ?m _) => assert (H : agrees k m) end.
  2:{ match type of H with agrees k ?m => destruct m as [v s1| |]; cbn [mbind agrees cache] in * end; try exact H.
      destruct H as [H1 H2]. split; [exact H1|]. apply sound_cons; assumption. }
  destruct (_ || _ || _) eqn:Et.
  { split; [|exact Hs]. split; [discriminate|]. exists 1%nat. cbn [pure]. rewrite En, Et. reflexivity. }
  destruct ((kn1 k =? 0) && (kn2 k =? 0)) eqn:E0.
  { assert (Hseed : forall r, match seed fmax u6j (n1_dot k) (l1_dot k) (n2_dot k) (l2_dot k) (kl1 k) (kl2 k) (kL k) with Ok v => POk v | _ => PAbort end = r -> value k r).
    { intros r <-. split; [destruct (seed _ _ _ _ _ _ _ _ _); discriminate|]. exists 1%nat. cbn [pure]. rewrite En, Et, E0. reflexivity. }
    destruct (seed _ _ _ _ _ _ _ _ _); try (apply Hseed; reflexivity). split; [apply Hseed; reflexivity|exact Hs]. }
  destruct (kn1 k =? 0) eqn:E1.
  - match goal with |- agrees k (mbind (bracket depth ?k2 ?s2) _) => specialize (IH k2 s2 Hs) end.
    assert (Hl : forall r, value (K (n1_dot k) (l1_dot k) (n2_dot k) (l2_dot k) (kn2 k) (kl2 k) (kn1 k) (kl1 k) (kL k)) r ->
      value k (match r with POk v => POk (parity_sign (l2_dot k - kL k) * v)%R | r => r end)).
    { intros r [Hr [d Hd]]. split; [destruct r; congruence|]. exists (S d). cbn [pure]. rewrite En, Et, E1, E0, Hd. destruct r; reflexivity. }
    destruct (bracket depth _ _) as [v s1| |]; cbn [mbind agrees] in *; [|exact (Hl _ IH)|exact I]. split; [exact (Hl _ (proj1 IH))|exact (proj2 IH)].
  - pose proof (add_terms_agrees (bracket depth) IH (terms k) 0%R (MS (cache s) (k :: asked s)) Hs) as H.
    assert (Hl : forall r, tvalue (terms k) 0%R r -> value k (match r with POk v => POk (1 / sqrt (IZR (kn1 k) * (IZR (kn1 k) + IZR (kl1 k) + 1 / 2)) * v)%R | r => r end)).
    { intros r [Hr [d Hd]]. split; [destruct r; congruence|]. exists (S d). cbn [pure]. rewrite En, Et, E1, E0, Hd. destruct r; reflexivity. }
    destruct (add_terms _ _ _ _) as [v s1| |]; cbn [mbind agrees] in *; [|exact (Hl _ H)|exact I]. split; [exact (Hl _ (proj1 H))|exact (proj2 H)].
Qed.
Lemma history_sound : forall l s s', sound (cache s) -> history fmax w6j u6j l s = Some s' -> sound (cache s').
Proof.
  induction l as [|k l IH]; intros s s' Hs H; cbn [history] in H; [injection H as <-; exact Hs|].
  pose proof (bracket_agrees (enough k) k s Hs) as Ha. unfold MoshModel.request in H. destruct (bracket (enough k) k s) as [v s1| |]; try discriminate.
  exact (IH s1 s' (proj2 Ha) H).
Qed.
Lemma sound_start : sound [].
Proof. intros k v H. discriminate. Qed.
(** the value of a result, if any *)
Definition returned (m : mres) : option R := match m with MOk v _ => Some v | _ => None end.
Lemma request_same : forall k s s', sound (cache s) -> sound (cache s') -> returned (request k s) = returned (request k s').
Proof.
  intros k s s' Hs Hs'. pose proof (request_no_fuel k s) as F. pose proof (request_no_fuel k s') as F'. unfold MoshModel.request in *.
  pose proof (bracket_agrees (enough k) k s Hs) as A. pose proof (bracket_agrees (enough k) k s' Hs') as A'.
  destruct (bracket (enough k) k s) as [v s1| |]; destruct (bracket (enough k) k s') as [v' s1'| |]; cbn [agrees returned] in *; try congruence.
  - pose proof (value_det _ _ _ (proj1 A) (proj1 A')) as E. congruence.
  - pose proof (value_det _ _ _ (proj1 A) A') as E. congruence.
  - pose proof (value_det _ _ _ A (proj1 A')) as E. congruence.
Qed.
Lemma forbidden_zero : forall k l s, history fmax w6j u6j l start = Some s ->
  quanta_dot k <> quanta k \/ allowed_triangle (l1_dot k) (l2_dot k) (kL k) = false \/ allowed_triangle (kl1 k) (kl2 k) (kL k) = false ->
  returned (request k s) = Some 0%R.
Proof.
  intros k l s Hh H. rewrite (request_same k s start); [|exact (history_sound l start s sound_start Hh)|exact sound_start].
  destruct (request_forbidden k start eq_refl H) as (s' & E & _). rewrite E. reflexivity.
Qed.
End PROOF.

(** * Limits of the evaluation *)
Fixpoint pfact (n : nat) : Z := match n with O => 1 | S n' => Z.of_nat (S n') * pfact n' end.
Lemma pfact_ok : forall n, IZR (pfact n) = INR (fact n).
Proof.
  induction n as [|n IH]; [reflexivity|]. cbn [pfact]. rewrite mult_IZR, IH, <- INR_IZR_INZ. change (fact (S n)) with (S n * fact n)%nat. rewrite mult_INR. reflexivity.
Qed.
Lemma zf_pfact : forall n, zf n = IZR (pfact (Z.to_nat n)).
Proof. intros n. unfold zf. rewrite pfact_ok. reflexivity. Qed.
Lemma clip_le : forall a, a <= 2 ^ 1024 - 2 ^ 971 -> clip (IZR a) = Fin (IZR a).
Proof. intros a H. unfold clip, dbl_max. destruct (Rle_dec _ _) as [|n]; [reflexivity|]. exfalso. apply n. apply IZR_le. exact H. Qed.
Lemma clip_gt : forall a, 2 ^ 1024 - 2 ^ 971 < a -> clip (IZR a) = Inf.
Proof. intros a H. unfold clip, dbl_max. destruct (Rle_dec _ _) as [n|]; [|reflexivity]. exfalso. apply le_IZR in n. lia. Qed.
Lemma div_exact : forall a b, b <> 0 -> (a / b) * b = a -> (IZR a / IZR b)%R = IZR (a / b).
Proof.
  intros a b Hb H. apply Rmult_eq_reg_r with (IZR b); [|apply IZR_neq; exact Hb]. rewrite <- mult_IZR, H. field. apply IZR_neq. exact Hb.
Qed.
Lemma overflow_36 : radicand_double 35 1 1 35 36 = Inf.
Proof.
  unfold radicand_double. rewrite !zf_pfact. cbn [emul ediv]. rewrite <- !mult_IZR.
  rewrite (clip_le (pfact (Z.to_nat (35 + 1 + 36 + 1)) * _)) by (vm_compute; discriminate). cbn [emul]. rewrite <- mult_IZR.
  rewrite (clip_le (pfact (Z.to_nat (35 + 1 + 36 + 1)) * pfact (Z.to_nat (35 + 1 - 36)) * _)) by (vm_compute; discriminate). cbn [ediv].
  rewrite div_exact by (vm_compute; (discriminate || reflexivity)). rewrite clip_le by (vm_compute; discriminate). 
  rewrite (clip_le (pfact (Z.to_nat (1 + 35 + 36 + 1)) * _)) by (vm_compute; discriminate). cbn [emul]. rewrite <- mult_IZR.
  rewrite (clip_le (pfact (Z.to_nat (1 + 35 + 36 + 1)) * pfact (Z.to_nat (1 + 35 - 36)) * _)) by (vm_compute; discriminate). cbn [emul]. rewrite <- mult_IZR.
  rewrite clip_gt by (vm_compute; reflexivity). reflexivity.
Qed.
Lemma exact_36 : (zf (35 + 1 + 36 + 1) * zf (35 + 1 - 36) * zf (35 - 1 + 36) / zf (1 - 35 + 36)
   * (zf (1 + 35 + 36 + 1) * zf (1 + 35 - 36) * zf (1 - 35 + 36)) / zf (35 - 1 + 36) <= dbl_max)%R.
Proof.
  rewrite !zf_pfact, <- !mult_IZR. rewrite div_exact by (vm_compute; (discriminate || reflexivity)). rewrite <- mult_IZR.
  rewrite div_exact by (vm_compute; (discriminate || reflexivity)). apply IZR_le. vm_compute. discriminate.
Qed.
