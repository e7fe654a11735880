(** Proofs for C47, C48, C71. *)
From Coq Require Import List ZArith Reals Lra Lia Bool Permutation.
From Verif Require Import Base BaseLemmas H2Model OscModel OscFinal SepModel CountModel CountSpec.
Import ListNotations.

(** * orbital generation *)
Section Triangular.
Variable wn : Z -> R.
Variable wt : Z -> Z -> R.
Variable w : R.
Hypothesis Hwn : forall n, wn n = wt n 0.
Hypothesis Hn : forall n n' l, (0 <= n <= n')%Z -> (0 <= l)%Z -> (wt n l <= wt n' l)%R.
Hypothesis Hl : forall n l l', (0 <= n)%Z -> (0 <= l <= l')%Z -> (wt n l <= wt n l')%R.
Variables Nb Lb : nat.
Hypothesis HN : (w < wt (Z.of_nat Nb) 0)%R.
Hypothesis HL : (w < wt 0 (Z.of_nat Lb))%R.

Lemma in_orbitals_at : forall sp n l o, (0 <= n)%Z -> (0 <= l)%Z ->
  In o (orbitals_at wt sp n l) <-> oi_sp o = sp /\ oi_n o = n /\ oi_l o = l /\ (oi_2j o = 2 * l + 1 \/ oi_2j o = 2 * l - 1)%Z /\ (0 < oi_2j o)%Z
     /\ oi_w o = wt n l.
Proof.
  intros sp n l o H0 H1. unfold orbitals_at. rewrite in_app_iff.
  destruct (Z.gtb_spec l 0) as [Hp|Hp]; cbn [In].
  - split.
    + intros [[<-|[]]|[<-|[]]]; cbn [oi_sp oi_n oi_l oi_2j oi_w]; repeat split; auto; lia.
    + destruct o as [sp' n' l' j' w']. cbn [oi_sp oi_n oi_l oi_2j oi_w].
      intros (-> & -> & -> & [->| ->] & _ & ->); [right; left|left; left]; reflexivity.
  - split.
    + intros [[]|[<-|[]]]; cbn [oi_sp oi_n oi_l oi_2j oi_w]; repeat split; auto; lia.
    + destruct o as [sp' n' l' j' w']. cbn [oi_sp oi_n oi_l oi_2j oi_w].
      intros (-> & -> & -> & [->| ->] & Hj & ->); [right; left; reflexivity|lia].
Qed.
Lemma nodup_orbitals_at : forall sp n l, NoDup (orbitals_at wt sp n l).
Proof.
  intros sp n l. unfold orbitals_at. destruct (l >? 0)%Z; cbn [app].
  - constructor; [intros [H|[]]; injection H; lia|]. constructor; [intros []|constructor].
  - constructor; [intros []|constructor].
Qed.

Lemma l_loop_spec : forall fuel sp n l, (0 <= n)%Z -> (0 <= l)%Z -> (0 < fuel)%nat -> (Lb < Z.to_nat l + fuel)%nat ->
  exists r, l_loop wt w fuel sp n l = Some r /\ NoDup r
  /\ forall o, In o r <-> oi_sp o = sp /\ oi_n o = n /\ (l <= oi_l o)%Z /\ orbital_within wt w o.
Proof.
  induction fuel as [|fuel IH]; intros sp n l H0 H1 Hp Hf; cbn [l_loop].
  - lia.
  - destruct (Rle_dec (wt n l) w) as [Hw|Hw].
    + destruct (Z_le_gt_dec (Z.of_nat Lb) l) as [Hle|Hgt].
      { exfalso. assert (wt 0 (Z.of_nat Lb) <= wt 0 l)%R by (apply Hl; lia). assert (wt 0 l <= wt n l)%R by (apply Hn; lia). lra. }
      destruct (IH sp n (l + 1)%Z H0 ltac:(lia) ltac:(lia) ltac:(lia)) as (r & Er & Nr & Ir). rewrite Er. cbn [option_map].
      exists (orbitals_at wt sp n l ++ r). split; [reflexivity|]. split.
      *
        assert (G : forall (A : Type) (l1 l2 : list A), NoDup l1 -> NoDup l2 -> (forall x, In x l1 -> ~ In x l2) -> NoDup (l1 ++ l2)).
        { clear. intros A l1. induction l1 as [|x l1 IHl]; intros l2 N1 N2 D; [exact N2|]. inversion N1; subst. cbn. constructor.
          - rewrite in_app_iff. intros [Hi|Hi]; [contradiction|]. apply (D x); [left; reflexivity|exact Hi].
          - apply IHl; auto. intros y Hy. apply D. right. exact Hy. }
        apply G; [apply nodup_orbitals_at|exact Nr|]. intros o Ho Ho'. apply in_orbitals_at in Ho; [|assumption..]. apply Ir in Ho'. lia.
      * intros o. rewrite in_app_iff, in_orbitals_at, Ir by assumption. unfold orbital_within. split.
        -- intros [(A1 & A2 & A3 & A4 & A5 & A6)|(A1 & A2 & A3 & A4)].
           ++ rewrite A2, A3. repeat split; auto; lia.
           ++ repeat split; try tauto; lia.
        -- intros (A1 & A2 & A3 & A4 & A5 & A6 & A7 & A8 & A9). destruct (Z.eq_dec (oi_l o) l) as [E|E].
           ++ left. rewrite E, A2 in *. repeat split; auto.
           ++ right. repeat split; auto; lia.
    + exists []. split; [reflexivity|]. split; [constructor|]. intros o. split; [intros []|].
      intros (A1 & A2 & A3 & A4 & A5 & A6 & A7 & A8 & A9). apply Hw. rewrite A2 in A8.
      assert (wt n l <= wt n (oi_l o))%R by (apply Hl; lia). lra.
Qed.
Lemma nodup_app : forall (A : Type) (l1 l2 : list A), NoDup l1 -> NoDup l2 -> (forall x, In x l1 -> ~ In x l2) -> NoDup (l1 ++ l2).
Proof.
  intros A l1. induction l1 as [|x l1 IHl]; intros l2 N1 N2 D; [exact N2|]. inversion N1; subst. cbn. constructor.
  - rewrite in_app_iff. intros [Hi|Hi]; [contradiction|]. apply (D x); [left; reflexivity|exact Hi].
  - apply IHl; auto. intros y Hy. apply D. right. exact Hy.
Qed.
Lemma n_loop_spec : forall lfuel fuel sp n, (Lb < lfuel)%nat -> (0 <= n)%Z -> (0 < fuel)%nat -> (Nb < Z.to_nat n + fuel)%nat ->
  exists r, n_loop wn wt w lfuel fuel sp n = Some r /\ NoDup r
  /\ forall o, In o r <-> oi_sp o = sp /\ (n <= oi_n o)%Z /\ orbital_within wt w o.
Proof.
  intros lfuel. induction fuel as [|fuel IH]; intros sp n Hlf H0 Hp Hf; cbn [n_loop].
  - lia.
  - destruct (Rle_dec (wn n) w) as [Hw|Hw]; rewrite Hwn in Hw.
    + destruct (Z_le_gt_dec (Z.of_nat Nb) n) as [Hle|Hgt].
      { exfalso. assert (wt (Z.of_nat Nb) 0 <= wt n 0)%R by (apply Hn; lia). lra. }
      destruct (l_loop_spec lfuel sp n 0 H0 ltac:(lia) ltac:(lia) ltac:(lia)) as (x & Ex & Nx & Ix).
      destruct (IH sp (n + 1)%Z Hlf ltac:(lia) ltac:(lia) ltac:(lia)) as (r & Er & Nr & Ir). rewrite Ex, Er.
      exists (x ++ r). split; [reflexivity|]. split.
      * apply nodup_app; [exact Nx|exact Nr|]. intros o Ho Ho'. apply Ix in Ho. apply Ir in Ho'. lia.
      * intros o. rewrite in_app_iff, Ix, Ir. split.
        -- intros [(A1 & A2 & A3 & A4)|(A1 & A2 & A4)]; repeat split; auto; try apply A4; lia.
        -- intros (A1 & A2 & A4). destruct (Z.eq_dec (oi_n o) n) as [E|E].
           ++ left. split; [exact A1|]. split; [exact E|]. split; [apply A4|exact A4].
           ++ right. split; [exact A1|]. split; [lia|exact A4].
    + exists []. split; [reflexivity|]. split; [constructor|]. intros o. split; [intros []|].
      intros (A1 & A2 & A3 & A5 & A6 & A7 & A8 & A9). apply Hw.
      assert (wt n 0 <= wt (oi_n o) 0)%R by (apply Hn; lia). assert (wt (oi_n o) 0 <= wt (oi_n o) (oi_l o))%R by (apply Hl; lia). lra.
Qed.
Lemma triangular_spec : forall fuel, (Lb < fuel)%nat -> (Nb < fuel)%nat ->
  exists r, triangular wn wt w fuel = Some r /\ lists_all (orbital_within wt w) r.
Proof.
  intros fuel H1 H2. unfold triangular.
  destruct (n_loop_spec fuel fuel SP 0 H1 ltac:(lia) ltac:(lia) ltac:(lia)) as (p & Ep & Np & Ip).
  destruct (n_loop_spec fuel fuel SN 0 H1 ltac:(lia) ltac:(lia) ltac:(lia)) as (n & En & Nn & In_). rewrite Ep, En.
  exists (p ++ n). split; [reflexivity|]. split.
  - apply nodup_app; [exact Np|exact Nn|]. intros o Ho Ho'. apply Ip in Ho. apply In_ in Ho'. destruct Ho as [Ho _], Ho' as [Ho' _]. congruence.
  - intros o. rewrite in_app_iff, Ip, In_. split.
    + intros [(_ & _ & H)|(_ & _ & H)]; exact H.
    + intros H. destruct (oi_sp o); [left|right]; (split; [reflexivity|split; [apply H|exact H]]).
Qed.
End Triangular.

(** exact weights *)
Lemma triangular_exact : forall a b w, (0 < a)%R -> (0 < b)%R ->
  exists F, forall fuel, (F <= fuel)%nat -> exists r,
  triangular (fun n => a * IZR n)%R (fun n l => a * IZR n + b * IZR l)%R w fuel = Some r
  /\ lists_all (orbital_within (fun n l => a * IZR n + b * IZR l)%R w) r.
Proof.
  intros a b w Ha Hb. set (wt := fun n l => (a * IZR n + b * IZR l)%R).
  assert (Bound : forall c, (0 < c)%R -> exists k, (w < c * IZR (Z.of_nat k))%R).
  { intros c Hc. destruct (archimed (Rabs w / c)) as [U _]. exists (Z.to_nat (up (Rabs w / c))).
    assert (0 <= Rabs w / c)%R by (apply Rmult_le_pos; [apply Rabs_pos|left; apply Rinv_0_lt_compat; exact Hc]).
    assert (0 < IZR (up (Rabs w / c)))%R by lra. apply lt_IZR in H0. rewrite Z2Nat.id by lia.
    apply Rle_lt_trans with (Rabs w); [apply Rle_abs|]. apply (Rmult_lt_compat_l c) in U; [|exact Hc].
    replace (c * (Rabs w / c))%R with (Rabs w) in U by (field; lra). exact U. }
  destruct (Bound a Ha) as (Nb & HN). destruct (Bound b Hb) as (Lb & HL).
  exists (S (Nb + Lb)). intros fuel Hf. apply (triangular_spec (fun n => a * IZR n)%R wt w) with (Nb := Nb) (Lb := Lb); try lia.
  - intros n. unfold wt. lra.
  - intros n n' l H _. unfold wt. apply Rplus_le_compat_r, Rmult_le_compat_l; [lra|]. apply IZR_le. lia.
  - intros n l l' _ H. unfold wt. apply Rplus_le_compat_l, Rmult_le_compat_l; [lra|]. apply IZR_le. lia.
  - unfold wt. lra.
  - unfold wt. lra.
Qed.

Lemma orbital_gen_spec : forall sort a b w, (forall l, Permutation l (sort l)) -> (0 < a)%R -> (0 < b)%R -> (0 <= w)%R ->
  exists F, forall fuel, (F <= fuel)%nat -> exists r, orbital_gen sort fuel w a b = Some (Ok r)
  /\ lists_all (orbital_within (fun n l => a * IZR n + b * IZR l)%R w) r.
Proof.
  intros sort a b w Hs Ha Hb Hw. destruct (triangular_exact a b w Ha Hb) as (F & HF). exists F. intros fuel Hf.
  destruct (HF fuel Hf) as (r & Er & Nr & Ir). unfold orbital_gen. rewrite Er. cbn [option_map].
  assert (Hne : r <> []).
  { intros ->. destruct (proj2 (Ir (OInfo SP 0 0 1 (a * 0 + b * 0))%R)). unfold orbital_within. cbn. repeat split; auto; try lia. lra. }
  destruct r as [|o r]; [contradiction|]. exists (sort (o :: r)). split; [reflexivity|].
  split; [eapply Permutation_NoDup; [apply Hs|exact Nr]|].
  intros x. rewrite <- Ir. split; apply Permutation_in; [apply Permutation_sym|]; apply Hs.
Qed.
Lemma orbital_gen_empty : forall sort a b w, (0 < a)%R -> (0 < b)%R -> (w < 0)%R ->
  exists F, forall fuel, (F <= fuel)%nat -> orbital_gen sort fuel w a b = Some Exit.
Proof.
  intros sort a b w Ha Hb Hw. destruct (triangular_exact a b w Ha Hb) as (F & HF). exists F. intros fuel Hf.
  destruct (HF fuel Hf) as (r & Er & Nr & Ir). unfold orbital_gen. rewrite Er. cbn [option_map].
  destruct r as [|o r]; [reflexivity|]. exfalso. destruct (proj1 (Ir o) (or_introl eq_refl)) as (A1 & A2 & _ & _ & A5 & _).
  apply IZR_le in A1, A2. assert (0 <= a * IZR (oi_n o))%R by (apply Rmult_le_pos; lra).
  assert (0 <= b * IZR (oi_l o))%R by (apply Rmult_le_pos; lra). lra.
Qed.
(** a weight that does not grow with l *)
Lemma orbital_gen_endless : forall sort a w, (0 <= w)%R -> forall fuel, orbital_gen sort fuel w a 0 = None.
Proof.
  intros sort a w Hw fuel. unfold orbital_gen, triangular.
  assert (G : forall f sp l, l_loop (fun n l => a * IZR n + 0 * IZR l)%R w f sp 0 l = None).
  { induction f as [|f IH]; intros sp l; [reflexivity|]. cbn [l_loop]. destruct (Rle_dec _ w) as [_|N]; [rewrite IH; reflexivity|].
    exfalso. apply N. lra. }
  assert (H : forall f, n_loop (fun n => a * IZR n)%R (fun n l => a * IZR n + 0 * IZR l)%R w fuel f SP 0 = None).
  { intros [|f]; [reflexivity|]. cbn [n_loop]. destruct (Rle_dec _ w) as [_|N]; [rewrite G; reflexivity|]. exfalso. apply N. lra. }
  rewrite H. reflexivity.
Qed.
