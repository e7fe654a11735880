(** C47, C48, C71: orbital-gen and statecount. *)
From Coq Require Import List ZArith Reals Lra Lia Bool Permutation.
From Verif Require Import Base H2Model OscModel CountModel CountSpec CountProof CountFinal.
Import ListNotations.

(** C47: in exact arithmetic, for all positive coefficients. *)
Theorem C47_triangular_orbitals : forall sort a b w, (forall l, Permutation l (sort l)) -> (0 < a)%R -> (0 < b)%R -> (0 <= w)%R ->
  exists F, forall fuel, (F <= fuel)%nat -> exists r, orbital_gen sort fuel w a b = Some (Ok r)
  /\ lists_all (orbital_within (fun n l => a * IZR n + b * IZR l)%R w) r.
Proof. exact orbital_gen_spec. Qed.
Print Assumptions C47_triangular_orbitals.
(** The same for any computed weights, such as rounded ones, that grow with n and l and pass the cutoff. *)
Theorem C47_computed_weights : forall wn wt w,
  (forall n, wn n = wt n 0%Z) ->
  (forall n n' l, (0 <= n <= n')%Z -> (0 <= l)%Z -> (wt n l <= wt n' l)%R) ->
  (forall n l l', (0 <= n)%Z -> (0 <= l <= l')%Z -> (wt n l <= wt n l')%R) ->
  forall Nb Lb : nat, (w < wt (Z.of_nat Nb) 0%Z)%R -> (w < wt 0%Z (Z.of_nat Lb))%R ->
  forall fuel, (Lb < fuel)%nat -> (Nb < fuel)%nat ->
  exists r, triangular wn wt w fuel = Some r /\ lists_all (orbital_within wt w) r.
Proof. exact triangular_spec. Qed.
Print Assumptions C47_computed_weights.
(** A negative cutoff leaves no orbital, and the program stops with an error. *)
Theorem C47_no_orbitals : forall sort a b w, (0 < a)%R -> (0 < b)%R -> (w < 0)%R ->
  exists F, forall fuel, (F <= fuel)%nat -> orbital_gen sort fuel w a b = Some Exit.
Proof. exact orbital_gen_empty. Qed.
Print Assumptions C47_no_orbitals.
Example C47_ex : (forall l : list oinfo, Permutation l (rev l)) /\ (0 < 2)%R /\ (0 < 1)%R /\ (0 <= 4)%R
  /\ orbital_within (fun n l => 2 * IZR n + 1 * IZR l)%R 4 (OInfo SN 1 2 3 4)
  /\ ~ orbital_within (fun n l => 2 * IZR n + 1 * IZR l)%R 4 (OInfo SN 1 3 5 5).
Proof.
  split; [apply Permutation_rev|]. split; [lra|]. split; [lra|]. split; [lra|]. split.
  - unfold orbital_within; cbn [oi_n oi_l oi_2j oi_w]. repeat split; try lia; lra.
  - unfold orbital_within; cbn [oi_n oi_l oi_2j oi_w]. intros (_ & _ & _ & _ & H & _). lra.
Qed.
(** a rounded weight: whole part of n/2 + l/2 *)
Example C47_ex_rounded : let wt := fun n l => IZR (n / 2 + l / 2) in
  (forall n n' l, (0 <= n <= n')%Z -> (0 <= l)%Z -> (wt n l <= wt n' l)%R)
  /\ (forall n l l', (0 <= n)%Z -> (0 <= l <= l')%Z -> (wt n l <= wt n l')%R)
  /\ (1 < wt (Z.of_nat 4) 0%Z)%R /\ (1 < wt 0%Z (Z.of_nat 4))%R.
Proof.
  cbn zeta beta. split; [|split; [|split]].
  - intros n n' l H _. apply IZR_le. pose proof (Z.div_le_mono n n' 2 ltac:(lia) ltac:(lia)). lia.
  - intros n l l' _ H. apply IZR_le. pose proof (Z.div_le_mono l l' 2 ltac:(lia) ltac:(lia)). lia.
  - change (Z.of_nat 4 / 2 + 0 / 2)%Z with 2%Z. lra.
  - change (0 / 2 + Z.of_nat 4 / 2)%Z with 2%Z. lra.
Qed.

(** C48 *)
Open Scope Z_scope.
Theorem C48_couplings : forall ja jb jc J l, Z.odd ja = true -> Z.odd jb = true -> Z.odd jc = true -> Z.odd J = true ->
  lists_all (couples ja jb jc J) l -> couplings ja jb jc J = Ok (Z.of_nat (length l)).
Proof. exact couplings_count. Qed.
Print Assumptions C48_couplings.
Theorem C48_one_body_cut : forall K N J l, Z.odd J = true -> lists_all (states (each_within N) (sporbitals K) J) l ->
  dim_one (sporbitals K) N J = Ok (Z.of_nat (length l)).
Proof. exact one_body_total. Qed.
Print Assumptions C48_one_body_cut.
Theorem C48_one_body_cut_J1 : forall K N J1 J l, Z.odd J = true -> lists_all (states_J1 (each_within N) (sporbitals K) J1 J) l ->
  dim_one_J1 (sporbitals K) N J1 J = Ok (Z.of_nat (length l)).
Proof. exact one_body_J1. Qed.
Print Assumptions C48_one_body_cut_J1.
Theorem C48_three_body_cut : forall K N J l, Z.odd J = true -> lists_all (states (sum_within N) (sporbitals K) J) l ->
  dim_three (sporbitals K) N J = Ok (Z.of_nat (length l)).
Proof. exact three_body_total. Qed.
Print Assumptions C48_three_body_cut.
Theorem C48_three_body_cut_J1 : forall K N J1 J l, Z.odd J = true -> lists_all (states_J1 (sum_within N) (sporbitals K) J1 J) l ->
  dim_three_J1 (sporbitals K) N J1 J = Ok (Z.of_nat (length l)).
Proof. exact three_body_J1. Qed.
Print Assumptions C48_three_body_cut_J1.
Theorem C48_orbital_dimension : forall N j l, Z.odd j = true -> 1 <= j <= 2 * N + 3 ->
  lists_all (fun o => In o (sporbitals N) /\ snd o = j) l -> orbital_dimension N j = Ok (Z.of_nat (length l)).
Proof. exact orbital_dimension_count. Qed.
Print Assumptions C48_orbital_dimension.
Example C48_ex_couplings : lists_all (couples 3 1 3 5) [1; 2].
Proof.
  split; [repeat constructor; cbn; intuition lia|]. intros x. unfold couples. cbn [In]. lia.
Qed.
Example C48_ex_states : lists_all (states (each_within 0) (sporbitals 0) 1) [(0%nat, 0%nat, 0%nat, 0); (0%nat, 0%nat, 0%nat, 1)].
Proof.
  split; [repeat constructor; cbn; intuition congruence|]. intros [[[i k] m] J1]. unfold states, three_orbitals, couples, each_within. split.
  - intros [E|[E|[]]]; injection E as <- <- <- <-; (split; [lia|]); exists (0, 1), (0, 1), (0, 1); cbn; repeat split; lia.
  - intros (Ho & a & b & c & Ha & Hb & Hc & _ & H). change (sporbitals 0) with [(0, 1)] in *. destruct i as [|[|i]]; cbn in Ha; try discriminate.
    destruct k as [|[|k]]; cbn in Hb; try discriminate. destruct m as [|[|m]]; cbn in Hc; try discriminate.
    assert (a = (0, 1) /\ b = (0, 1) /\ c = (0, 1)) as (-> & -> & ->) by (repeat split; congruence). cbn [snd] in H.
    assert (D : J1 = 0 \/ J1 = 1) by lia. destruct D as [-> | ->]; cbn; auto.
Qed.
Example C48_ex_orbitals : lists_all (fun o => In o (sporbitals 3) /\ snd o = 5) [(2, 5); (3, 5)].
Proof.
  split; [repeat constructor; cbn; intuition congruence|]. intros [N j]. rewrite in_sporbitals. cbn [snd In]. split.
  - intros [E|[E|[]]]; injection E as <- <-; repeat split; lia.
  - intros ((H1 & _ & H2) & ->). assert (D : N = 2 \/ N = 3) by lia. destruct D as [-> | ->]; auto.
Qed.

(** C71: refuted.  With b = 0 the loop over l never ends. *)
Theorem C71_generation_ends_refuted : exists a b w, (0 <= a)%R /\ (0 <= b)%R /\ forall sort fuel, orbital_gen sort fuel w a b = None.
Proof. exists 1%R, 0%R, 2%R. split; [lra|]. split; [lra|]. intros sort fuel. apply orbital_gen_endless. lra. Qed.
Print Assumptions C71_generation_ends_refuted.
Theorem C71_no_end_without_l_weight : forall sort a w, (0 <= w)%R -> forall fuel, orbital_gen sort fuel w a 0%R = None.
Proof. exact orbital_gen_endless. Qed.
Print Assumptions C71_no_end_without_l_weight.
