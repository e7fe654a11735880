(** Proofs for C169 (continued), C170 and C171. *)
From Coq Require Import List ZArith Reals Bool Lia Lra Permutation Sorted.
From Verif Require Import Base RMat H2Model MapModel OscModel BlockModel WfModel RscModel RscSpec RscProof.
From Verif Require OscFinal CountFinal.
Import ListNotations.
Open Scope Z_scope.
Open Scope outcome_scope.

(** Scaling twice is scaling once by the product of the ratios. *)
Lemma scaled_twice : forall single order p n p' n' f, exact single -> file_ok f -> can_scale f -> Permutation order (seq 0 (length (rf_sectors f))) ->
  p <> 0%R -> n <> 0%R -> p' <> 0%R -> n' <> 0%R ->
  exists g h k, radial_scale single order p n f = Ok g /\ radial_scale single order p' n' g = Ok h /\ radial_scale single order (p' * p) (n' * n) f = Ok k
  /\ same_operator k h
  /\ forall ix i j s v, element f ix i j (Fin v) -> sector_species f ix s -> exists e, element h ix i j e /\ element k ix i j e.
Proof.
  intros single order p n p' n' f Hx Hf Hc Hp Hp0 Hn0 Hp1 Hn1.
  destruct (scaled_elements single order p n f Hf Hc Hp Hp0 Hn0) as (g & Eg & Sg & Ng).
  pose proof Sg as (St & Sp & Sz & Sb & Sk & Ss & Sl).
  assert (Hfg : file_ok g) by (destruct Hf as [A B]; split; [congruence|rewrite Ss, Sb; exact B]).
  assert (Hcg : can_scale g) by (unfold can_scale; rewrite St, Sp, Sz; exact Hc).
  assert (Hpg : Permutation order (seq 0 (length (rf_sectors g)))) by (rewrite Ss; exact Hp).
  destruct (scaled_elements single order p' n' g Hfg Hcg Hpg Hp1 Hn1) as (h & Eh & Sh & Nh).
  destruct (scaled_elements single order (p' * p) (n' * n) f Hf Hc Hp) as (k & Ek & Sk' & Nk); [apply Rmult_integral_contrapositive; auto|apply Rmult_integral_contrapositive; auto|].
  exists g, h, k. split; [exact Eg|]. split; [exact Eh|]. split; [exact Ek|]. split.
  { destruct Sh as (A1 & A2 & A3 & A4 & A5 & A6 & A7). destruct Sk' as (B1 & B2 & B3 & B4 & B5 & B6 & B7). unfold same_operator.
    repeat split; congruence. }
  intros ix i j s v He Hs. exists (Fin (v * powerRZ (by_species (p' * p) (n' * n) s) (length_power f))). split.
  - pose proof (Ng _ _ _ _ _ He Hs) as Hg. rewrite Hx in Hg. cbn [fmul] in Hg.
    assert (Hsg : sector_species g ix s) by (destruct Hs as (x & b & A & B & C); exists x, b; rewrite Ss, Sb; auto).
    pose proof (Nh _ _ _ _ _ Hg Hsg) as Hh. rewrite Hx in Hh. cbn [fmul] in Hh.
    replace (length_power g) with (length_power f) in Hh by (unfold length_power; rewrite St, Sp; reflexivity).
    replace (by_species (p' * p) (n' * n) s) with (by_species p' n' s * by_species p n s)%R by (destruct s; reflexivity). rewrite powerRZ_mult.
    replace (v * (powerRZ (by_species p' n' s) (length_power f) * powerRZ (by_species p n s) (length_power f)))%R
      with (v * powerRZ (by_species p n s) (length_power f) * powerRZ (by_species p' n' s) (length_power f))%R by ring. exact Hh.
  - pose proof (Nk _ _ _ _ _ He Hs) as Hk. rewrite Hx in Hk. exact Hk.
Qed.

Definition momentum_file (v : fl) : rfile :=
  RF RK 2 0 [(LL SP 0 1, [0])] [(LL SP 0 1, [0])] [(0%nat, 0%nat)] [Mat 1 1 (fun _ _ => v)].
(** A ratio of zero, which the program accepts, makes elements that are no numbers. *)
Lemma zero_ratio : forall single, exact single -> exists f g, file_ok f /\ can_scale f /\ element f 0 0 0 (Fin 0)
  /\ radial_scale single [0%nat] 0 0 f = Ok g /\ element g 0 0 0 NaN.
Proof.
  intros single Hx. exists (momentum_file (Fin 0)).
  assert (Hc : can_scale (momentum_file (Fin 0))) by (split; [right; reflexivity|split; [reflexivity|cbn; lia]]).
  assert (Hf : file_ok (momentum_file (Fin 0))) by (split; [reflexivity|intros x [<-|[]]; cbn; lia]).
  assert (Hs : sector_species (momentum_file (Fin 0)) 0 SP) by (exists (0%nat, 0%nat), (LL SP 0 1, [0]); auto).
  destruct (scale_result single [0%nat] 0 0 _ Hf Hc (Permutation_refl _)) as (g & E & _ & N).
  exists g. split; [exact Hf|]. split; [exact Hc|]. split; [eexists; split; [reflexivity|cbn; split; [lia|split; [lia|reflexivity]]]|]. split; [exact E|].
  eexists. split; [exact (N 0%nat _ SP eq_refl Hs)|]. cbn [scale_block rows cols at_]. split; [lia|]. split; [lia|]. rewrite Hx.
  unfold pow_int. cbn [by_species length_power momentum_file rf_type rf_power Z.opp]. destruct (Req_EM_T 0 0) as [_|H]; [|contradiction].
  change ((-2 <? 0) && true) with true. cbn [fmul]. unfold inf_times, sgn. destruct (total_order_T 0 0) as [[H|H]|H]; [lra|reflexivity|lra].
Qed.

Lemma zero_ratio_refuted : exists f g, file_ok f /\ can_scale f /\ element f 0 0 0 (Fin 0)
  /\ radial_scale (fun x => x) [0%nat] 0 0 f = Ok g /\ element g 0 0 0 NaN.
Proof. exact (zero_ratio (fun x => x) (fun x => eq_refl)). Qed.

(** a proton sector and a neutron sector of r^2, lengths twice and three times as large *)
Definition radius_file : rfile :=
  RF RR 2 0 [(LL SP 0 1, [0]); (LL SN 0 1, [0])] [(LL SP 0 1, [0]); (LL SN 0 1, [0])] [(0, 0); (1, 1)]%nat
    [Mat 1 1 (fun _ _ => Fin (3 / 2)); Mat 1 1 (fun _ _ => Fin (3 / 2))].
Lemma scale_case : forall single, exact single -> exists g, radial_scale single [1%nat; 0%nat] 2 3 radius_file = Ok g
  /\ element g 0 0 0 (Fin 6) /\ element g 1 0 0 (Fin (27 / 2)).
Proof.
  intros single Hx. assert (P : forall x, powerRZ x 2 = (x * x)%R) by (intros x; unfold powerRZ; change (Pos.to_nat 2) with 2%nat; ring).
  assert (Hc : can_scale radius_file) by (split; [left; reflexivity|split; [reflexivity|cbn; lia]]).
  assert (Hf : file_ok radius_file) by (split; [reflexivity|intros x [<-|[<-|[]]]; cbn; lia]).
  destruct (scaled_elements single [1%nat; 0%nat] 2 3 _ Hf Hc) as (g & E & _ & N); [apply perm_swap|lra|lra|].
  exists g. split; [exact E|]. split.
  - assert (H := N 0%nat 0%nat 0%nat SP (Fin (3 / 2))). rewrite Hx in H. cbn [fmul] in H.
    replace 6%R with (3 / 2 * powerRZ (by_species 2 3 SP) (length_power radius_file))%R by (change (length_power radius_file) with 2; rewrite P; cbn [by_species]; lra). apply H.
    + exists (Mat 1 1 (fun _ _ => Fin (3 / 2))). split; [reflexivity|]. cbn [rows cols at_]. split; [lia|split; [lia|reflexivity]].
    + exists (0%nat, 0%nat), (LL SP 0 1, [0]). auto.
  - assert (H := N 1%nat 0%nat 0%nat SN (Fin (3 / 2))). rewrite Hx in H. cbn [fmul] in H.
    replace (27 / 2)%R with (3 / 2 * powerRZ (by_species 2 3 SN) (length_power radius_file))%R by (change (length_power radius_file) with 2; rewrite P; cbn [by_species]; lra). apply H.
    + exists (Mat 1 1 (fun _ _ => Fin (3 / 2))). split; [reflexivity|]. cbn [rows cols at_]. split; [lia|split; [lia|reflexivity]].
    + exists (1%nat, 1%nat), (LL SN 0 1, [0]). auto.
Qed.

(** * C170 *)
Lemma in_by_twos : forall a b x, In x (by_twos a b) <-> a <= x <= b /\ Z.even (x - a) = true.
Proof.
  intros a b x. unfold by_twos. rewrite in_map_iff. split.
  - intros (i & <- & Hi). apply in_seq in Hi.
    assert (Z.of_nat i < (b - a) / 2 + 1) by lia. assert (2 * ((b - a) / 2) <= b - a) by (apply Z.mul_div_le; lia).
    split; [lia|]. replace (a + 2 * Z.of_nat i - a) with (2 * Z.of_nat i) by lia. apply Z.even_spec. exists (Z.of_nat i). reflexivity.
  - intros [H E]. apply Z.even_spec in E. destruct E as [k E]. exists (Z.to_nat k). split; [lia|]. apply in_seq.
    assert (k <= (b - a) / 2) by (apply Z.div_le_lower_bound; lia). lia.
Qed.

Lemma by_twos_sorted : forall a b, StronglySorted Z.lt (by_twos a b).
Proof.
  intros a b. unfold by_twos. generalize (Z.to_nat ((b - a) / 2 + 1)). intros n. generalize 0%nat. induction n as [|n IH]; intros s; [constructor|].
  cbn [seq]. cbn [map]. constructor; [apply IH|]. apply Forall_forall. intros y Hy. apply in_map_iff in Hy. destruct Hy as (i & <- & Hi). apply in_seq in Hi. lia.
Qed.
Lemma zrange_sorted : forall a b, StronglySorted Z.lt (zrange a b).
Proof.
  intros a b. unfold zrange. generalize (Z.to_nat (b - a + 1)). intros n. generalize 0%nat. induction n as [|n IH]; intros s; [constructor|].
  cbn [seq map]. constructor; [apply IH|]. apply Forall_forall. intros y Hy. apply in_map_iff in Hy. destruct Hy as (i & <- & Hi). apply in_seq in Hi. lia.
Qed.

Lemma even_mod : forall z, Z.even z = true <-> z mod 2 = 0.
Proof. intros z. rewrite Zeven_mod. symmetry. apply Zeq_is_eq_bool. Qed.

(** The listing has the states of N quanta coupled to L, and no others. *)
Lemma space_complete : forall N L s, 0 <= L -> (In s (two_body_space N L) <-> nl_state N L s).
Proof.
  intros N L [[N1 l1] [N2 l2]] HL. unfold two_body_space, nl_state, is_orbital, couples. cbn [fst snd]. rewrite in_flat_map. setoid_rewrite in_flat_map. split.
  - intros (n1 & H1 & m1 & H2 & H3). apply in_map_iff in H3. destruct H3 as (m2 & E & H3). injection E as <- <- <- <-.
    apply OscFinal.in_zrange in H1. apply in_by_twos in H2. apply in_by_twos in H3. rewrite !even_mod in *.
    Z.div_mod_to_equations. lia.
  - intros ((A1 & A2) & (B1 & B2) & S & C). exists N1. split; [apply OscFinal.in_zrange; lia|]. exists l1. split.
    + apply in_by_twos. rewrite !even_mod in *. Z.div_mod_to_equations. lia.
    + apply in_map_iff. exists l2. split; [rewrite <- S; do 2 f_equal; lia|]. apply in_by_twos. rewrite !even_mod in *. Z.div_mod_to_equations. lia.
Qed.

Lemma sorted_app : forall A (r : A -> A -> Prop) l m, StronglySorted r l -> StronglySorted r m -> (forall x y, In x l -> In y m -> r x y) -> StronglySorted r (l ++ m).
Proof.
  intros A r l m Hl Hm H. induction Hl as [|x l Hl IH Hx]; [exact Hm|]. cbn [app]. constructor.
  - apply IH. intros a b Ha Hb. apply H; [right; exact Ha|exact Hb].
  - apply Forall_app. split; [exact Hx|]. apply Forall_forall. intros y Hy. apply H; [left; reflexivity|exact Hy].
Qed.
Lemma sorted_flat_map : forall A B (q : A -> A -> Prop) (r : B -> B -> Prop) (f : A -> list B) l, StronglySorted q l ->
  (forall x, In x l -> StronglySorted r (f x)) -> (forall x y a b, In x l -> In y l -> q x y -> In a (f x) -> In b (f y) -> r a b) -> StronglySorted r (flat_map f l).
Proof.
  intros A B q r f l Hl Hf H. induction Hl as [|x l Hl IH Hx]; [constructor|]. cbn [flat_map]. apply sorted_app.
  - apply Hf. left. reflexivity.
  - apply IH; [intros y Hy; apply Hf; right; exact Hy|]. intros y z a b Hy Hz. apply H; right; assumption.
  - intros a b Ha Hb. apply in_flat_map in Hb. destruct Hb as (y & Hy & Hb). rewrite Forall_forall in Hx. exact (H x y a b (or_introl eq_refl) (or_intror Hy) (Hx y Hy) Ha Hb).
Qed.
Lemma sorted_map : forall A B (q : A -> A -> Prop) (r : B -> B -> Prop) (f : A -> B) l, StronglySorted q l -> (forall x y, q x y -> r (f x) (f y)) -> StronglySorted r (map f l).
Proof.
  intros A B q r f l Hl H. induction Hl as [|x l Hl IH Hx]; [constructor|]. cbn [map]. constructor; [exact IH|]. apply Forall_forall. intros b Hb.
  apply in_map_iff in Hb. destruct Hb as (y & <- & Hy). rewrite Forall_forall in Hx. exact (H x y (Hx y Hy)).
Qed.
Lemma sorted_nodup : forall A (r : A -> A -> Prop) l, (forall x, ~ r x x) -> StronglySorted r l -> NoDup l.
Proof.
  intros A r l Hr Hl. induction Hl as [|x l Hl IH Hx]; constructor; [|exact IH]. intros Hi. rewrite Forall_forall in Hx. exact (Hr x (Hx x Hi)).
Qed.

(** The states come in the order of the header, none twice. *)
Lemma space_sorted : forall N L, StronglySorted state_before (two_body_space N L).
Proof.
  intros N L. unfold two_body_space. apply (sorted_flat_map _ _ Z.lt).
  - apply zrange_sorted.
  - intros N1 _. apply (sorted_flat_map _ _ Z.lt).
    + apply by_twos_sorted.
    + intros l1 _. apply (sorted_map _ _ Z.lt); [apply by_twos_sorted|]. intros x y H. unfold state_before. lia.
    + intros x y a b Ix Iy H Ha Hb. apply in_map_iff in Ha, Hb. destruct Ha as (? & <- & _). destruct Hb as (? & <- & _). unfold state_before. lia.
  - intros x y a b Ix Iy H Ha Hb. apply in_flat_map in Ha, Hb. destruct Ha as (? & _ & Ha). destruct Hb as (? & _ & Hb).
    apply in_map_iff in Ha, Hb. destruct Ha as (? & <- & _). destruct Hb as (? & <- & _). unfold state_before. lia.
Qed.
Lemma state_before_irrefl : forall s, ~ state_before s s.
Proof. intros [[N1 l1] [N2 l2]]. unfold state_before. lia. Qed.
Lemma space_nodup : forall N L, NoDup (two_body_space N L).
Proof. intros N L. apply (sorted_nodup _ state_before); [apply state_before_irrefl|apply space_sorted]. Qed.

(** A line is in the table if and only if it gives the bracket between two states with the same number of quanta, at most
    N_max, coupled to the same L. *)
Lemma table_complete : forall D (bracket : nlpair -> nlpair -> Z -> D) N_max bra ket L v,
  In (bra, ket, L, v) (bracket_table bracket N_max)
  <-> v = bracket bra ket L /\ exists N, N <= N_max /\ nl_state N L bra /\ nl_state N L ket.
Proof.
  intros D bracket N_max bra ket L v. unfold bracket_table. rewrite in_flat_map. split.
  - intros (N & HN & H). apply in_flat_map in H. destruct H as (L' & HL & H). apply in_flat_map in H. destruct H as (b & Hb & H).
    apply in_map_iff in H. destruct H as (k & E & Hk). injection E as -> -> -> <-. apply OscFinal.in_zrange in HN, HL.
    apply space_complete in Hb; [|lia]. apply space_complete in Hk; [|lia]. split; [reflexivity|]. exists N. split; [lia|]. auto.
  - intros (-> & N & HN & Hb & Hk). exists N.
    assert (HL : 0 <= L <= N) by (destruct bra as [[N1 l1] [N2 l2]]; unfold nl_state, is_orbital, couples in Hb; cbn [fst snd] in Hb; lia).
    split; [apply OscFinal.in_zrange; lia|]. apply in_flat_map. exists L. split; [apply OscFinal.in_zrange; lia|].
    apply in_flat_map. exists bra. split; [apply space_complete; [lia|exact Hb]|]. apply in_map_iff. exists ket. split; [reflexivity|]. apply space_complete; [lia|exact Hk].
Qed.

(** The lines come in the order of the header, none twice. *)
Lemma table_sorted : forall D (bracket : nlpair -> nlpair -> Z -> D) N_max, StronglySorted (line_before) (bracket_table bracket N_max).
Proof.
  intros D bracket N_max. unfold bracket_table.
  assert (Q' : forall N L b, In b (two_body_space N L) -> quanta b = N).
  { intros N L b Hb. unfold two_body_space in Hb. apply in_flat_map in Hb. destruct Hb as (? & _ & Hb). apply in_flat_map in Hb. destruct Hb as (? & _ & Hb).
    apply in_map_iff in Hb. destruct Hb as (? & <- & _). unfold quanta. cbn [fst snd]. lia. }
  assert (Q : forall N L x, In x (flat_map (fun bra => map (fun ket => (bra, ket, L, bracket bra ket L)) (two_body_space N L)) (two_body_space N L)) ->
    let '(b, _, L', _) := x in quanta b = N /\ L' = L).
  { intros N L x H. apply in_flat_map in H. destruct H as (b & Hb & H). apply in_map_iff in H. destruct H as (k & <- & _). split; [exact (Q' N L b Hb)|reflexivity]. }
  apply (sorted_flat_map _ _ Z.lt); [apply zrange_sorted| |].
  - intros N _. apply (sorted_flat_map _ _ Z.lt); [apply zrange_sorted| |].
    + intros L _. apply (sorted_flat_map _ _ state_before); [apply space_sorted| |].
      * intros b _. apply (sorted_map _ _ state_before); [apply space_sorted|]. intros x y H. unfold line_before. right. split; [reflexivity|]. right. split; [reflexivity|]. right. split; [reflexivity|exact H].
      * intros x y a b Ix Iy H Ha Hb. apply in_map_iff in Ha, Hb. destruct Ha as (ka & <- & _). destruct Hb as (kb & <- & _). unfold line_before.
        right. split; [rewrite (Q' N L x Ix), (Q' N L y Iy); reflexivity|]. right. split; [reflexivity|]. left. exact H.
    + intros x y a b Ix Iy H Ha Hb. apply Q in Ha, Hb. destruct a as [[[? ?] ?] ?]. destruct b as [[[? ?] ?] ?]. unfold line_before. lia.
  - intros x y a b Ix Iy H Ha Hb. apply in_flat_map in Ha, Hb. destruct Ha as (? & _ & Ha). destruct Hb as (? & _ & Hb). apply Q in Ha, Hb.
    destruct a as [[[? ?] ?] ?]. destruct b as [[[? ?] ?] ?]. unfold line_before. lia.
Qed.
Lemma table_nodup : forall D (bracket : nlpair -> nlpair -> Z -> D) N_max, NoDup (bracket_table bracket N_max).
Proof.
  intros D bracket N_max. apply (sorted_nodup _ line_before); [|apply table_sorted]. intros [[[b k] L] v] H. unfold line_before in H.
  destruct H as [H|[_ [H|[_ [H|[_ H]]]]]]; [lia|lia|exact (state_before_irrefl _ H)|exact (state_before_irrefl _ H)].
Qed.
Lemma table_case : Z.of_nat (length (bracket_table (fun _ _ _ => tt) 6)) = 1456 /\ two_body_space 2 1 = [((1, 1), (1, 1))]
  /\ two_body_space 2 2 = [((0, 0), (2, 2)); ((1, 1), (1, 1)); ((2, 2), (0, 0))].
Proof. vm_compute. repeat split. Qed.

(** * C171 *)
Lemma slash_loop : forall n l m, rows m = n -> cols m = n -> (forall i, In i l -> (i < n)%nat) -> NoDup l ->
  exists r, for_each l (fun row m => mat_put m row (n - row - 1) 1%R) m = Ok r /\ rows r = n /\ cols r = n
  /\ forall i j, (i < n)%nat -> (j < n)%nat -> at_ r i j = if existsb (Nat.eqb i) l && Nat.eqb (i + j + 1) n then 1%R else at_ m i j.
Proof.
  intros n l. induction l as [|a l IH]; intros m Hr Hc Hi Hn.
  - exists m. split; [reflexivity|]. split; [exact Hr|]. split; [exact Hc|]. reflexivity.
  - inversion Hn as [|? ? Ha Hn']; subst. assert (Hal : (a < rows m)%nat) by (apply Hi; left; reflexivity).
    cbn [for_each]. unfold mat_put at 1. rewrite Hc. rewrite (proj2 (Nat.ltb_lt a (rows m)) Hal). rewrite (proj2 (Nat.ltb_lt (rows m - a - 1) (rows m))) by lia.
    cbn [andb cassert bind]. destruct (IH (mset m a (rows m - a - 1) 1%R)) as (r & E & R1 & R2 & V); [reflexivity|exact Hc|intros; apply Hi; right; assumption|exact Hn'|].
    exists r. split; [exact E|]. split; [exact R1|]. split; [exact R2|]. intros i j Hi' Hj. rewrite V by assumption. cbn [existsb mset at_].
    destruct (Nat.eqb_spec i a) as [->|Ne]; cbn [orb andb]; [|reflexivity].
    destruct (existsb (Nat.eqb a) l) eqn:Ex; cbn [andb].
    + apply existsb_exists in Ex. destruct Ex as (y & Hy & Ey). apply Nat.eqb_eq in Ey. subst y. contradiction.
    + destruct (Nat.eqb_spec j (rows m - a - 1)); destruct (Nat.eqb_spec (a + j + 1) (rows m)); try reflexivity; lia.
Qed.
Lemma slash_reverses : forall n, exists m, slash_block n n = Ok m /\ rows m = n /\ reverses m.
Proof.
  intros n. unfold slash_block. rewrite Nat.eqb_refl. cbn [cassert bind].
  destruct (slash_loop n (seq 0 n) (mzero 0%R n n)) as (m & E & R1 & R2 & V); [reflexivity|reflexivity|intros i H; apply in_seq in H; lia|apply seq_NoDup|].
  exists m. split; [exact E|]. split; [exact R1|]. split; [congruence|]. rewrite R1, R2. intros i j Hi Hj. rewrite V by assumption.
  replace (existsb (Nat.eqb i) (seq 0 n)) with true; [reflexivity|]. symmetry. apply existsb_exists. exists i. split; [apply in_seq; lia|apply Nat.eqb_refl].
Qed.

Lemma space_dim : forall Nmax a, In a (oscillator_space Nmax) -> snd a = zrange 0 ((Nmax - ll_l (fst a)) / 2).
Proof.
  intros Nmax a H. unfold oscillator_space in H. apply in_flat_map in H. destruct H as (sp & _ & H). apply in_flat_map in H. destruct H as (l & _ & H).
  apply in_flat_map in H. destruct H as (tj & _ & H). destruct (tj <? 0); [destruct H|]. destruct H as [<-|[]]. reflexivity.
Qed.

(** For sectors between subspaces of the same l the assertion holds, and every block reverses the order of the functions. *)
Lemma permutation_blocks : forall Nmax sectors, same_l (oscillator_space Nmax) sectors ->
  exists ms, radial_permutation Nmax sectors = Ok ms /\ length ms = length sectors
  /\ forall ix x m, nth_error sectors ix = Some x -> nth_error ms ix = Some m -> rows m = sub_dim (oscillator_space Nmax) (fst x) /\ reverses m.
Proof.
  intros Nmax. unfold radial_permutation. induction sectors as [|x sectors IH]; intros H.
  - exists []. split; [reflexivity|]. split; [reflexivity|]. intros [|ix] y m E; discriminate.
  - destruct IH as (ms & E & L & V); [intros y Hy; apply H; right; exact Hy|]. destruct (H x) as (a & b & Ea & Eb & El); [left; reflexivity|].
    assert (D : sub_dim (oscillator_space Nmax) (snd x) = sub_dim (oscillator_space Nmax) (fst x)).
    { unfold sub_dim. rewrite Ea, Eb. apply nth_error_In in Ea, Eb. apply space_dim in Ea, Eb. destruct a as [la na]. destruct b as [lb nb]. cbn [fst snd] in *. subst. rewrite El. reflexivity. }
    cbn [map_blocks]. rewrite D. destruct (slash_reverses (sub_dim (oscillator_space Nmax) (fst x))) as (m & Em & Rm & Vm). rewrite Em. cbn [bind]. rewrite E. cbn [bind].
    exists (m :: ms). split; [reflexivity|]. split; [cbn [length]; rewrite L; reflexivity|]. intros [|ix] y k; cbn [nth_error]; intros Ey Ek.
    + injection Ey as <-. injection Ek as <-. split; [exact Rm|exact Vm].
    + exact (V ix y k Ey Ek).
Qed.

(** Multiplication by such a block reverses the order of the rows ... *)
Lemma reverses_rows : forall m a, reverses m -> rows a = rows m ->
  exists b, mmul m a = Ok b /\ rows b = rows a /\ cols b = cols a
  /\ forall i j, (i < rows a)%nat -> (j < cols a)%nat -> at_ b i j = at_ a (rows a - 1 - i) j.
Proof.
  intros m a [Hs Hv] Ha. unfold mmul. rewrite <- Hs, <- Ha. rewrite Nat.eqb_refl. cbn [cassert bind]. eexists. split; [reflexivity|]. cbn [rows cols at_].
  split; [reflexivity|]. split; [reflexivity|]. intros i j Hi Hj.
  rewrite (rsum_one (rows a) (rows a - 1 - i)); [|lia|].
  - rewrite Hv by lia. rewrite (proj2 (Nat.eqb_eq (i + (rows a - 1 - i) + 1) (rows m))) by lia. ring.
  - intros k Hk Hne. rewrite Hv by lia. rewrite (proj2 (Nat.eqb_neq (i + k + 1) (rows m))) by lia. ring.
Qed.
(** ... so the transformation is its own inverse. *)
Lemma reverses_twice : forall m, reverses m -> exists b, mmul m m = Ok b /\ rows b = rows m /\ cols b = cols m
  /\ forall i j, (i < rows m)%nat -> (j < cols m)%nat -> at_ b i j = if Nat.eqb i j then 1%R else 0%R.
Proof.
  intros m H. destruct (reverses_rows m m H eq_refl) as (b & E & R1 & R2 & V). exists b. split; [exact E|]. split; [exact R1|]. split; [exact R2|].
  intros i j Hi Hj. rewrite V by assumption. destruct H as [Hs Hv]. rewrite Hv by lia. destruct (Nat.eqb_spec i j); destruct (Nat.eqb_spec (rows m - 1 - i + j + 1) (rows m)); try reflexivity; lia.
Qed.
Lemma permutation_case : exists ms, radial_permutation 2 [(0, 0); (5, 5)]%nat = Ok ms /\ length ms = 2%nat
  /\ forall m, nth_error ms 0 = Some m -> rows m = 2%nat /\ at_ m 0%nat 1%nat = 1%R /\ at_ m 0%nat 0%nat = 0%R.
Proof.
  destruct (permutation_blocks 2 [(0, 0); (5, 5)]%nat) as (ms & E & L & V).
  { intros x [<-|[<-|[]]]; eexists; eexists; (split; [reflexivity|]); (split; [reflexivity|]); reflexivity. }
  exists ms. split; [exact E|]. split; [exact L|]. intros m Em. destruct (V 0%nat _ m eq_refl Em) as [R [Hs Hv]]. change (rows m = 2%nat) in R.
  split; [exact R|]. rewrite R in Hs. rewrite !Hv by lia. rewrite R. split; reflexivity.
Qed.
