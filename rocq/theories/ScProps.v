(** C165-C168: the two-body counts, the counts by angular momentum and the table of statecount.
    The definitions used in the statements are in ScSpec.v and CountSpec.v (states), ScModel.v and CountModel.v (code). *)
From Coq Require Import List ZArith Bool Sorted.
From Verif Require Import Base CountModel CountSpec ScModel ScSpec ScProof ScFinal ScTotal.
Import ListNotations.
Open Scope Z_scope.

(** C165.  The count with a one-body cut is the number of pairs of orbitals in canonical order, within the cut, that couple to J. *)
Theorem C165_one_body_cut : forall K N J l, N <= K -> lists_all (pair_state (both_within N) J) l -> two_one (sporbitals K) N J = Ok (Z.of_nat (length l)).
Proof. exact one_body_pairs. Qed.
Print Assumptions C165_one_body_cut.

(** C165.  The same with a two-body cut. *)
Theorem C165_two_body_cut : forall K N J l, N <= K -> lists_all (pair_state (pair_sum_within N) J) l -> two_two (sporbitals K) N J = Ok (Z.of_nat (length l)).
Proof. exact two_body_pairs. Qed.
Print Assumptions C165_two_body_cut.

(** C165.  The counts lie between each other as the cuts do. *)
Theorem C165_nested : forall K N J x y z, 2 * N <= K -> 0 <= N ->
  two_one (sporbitals K) N J = Ok x -> two_two (sporbitals K) N J = Ok y -> two_two (sporbitals K) (2 * N) J = Ok z -> y <= x <= z.
Proof. exact cuts_nested. Qed.
Print Assumptions C165_nested.

(** C165.  The table has, in order, one row for every shell up to the last and every J up to twice the largest j, with the three counts ... *)
Theorem C165_table : forall K M, M <= K -> exists t, two_body_table (sporbitals K) M = Ok t /\ StronglySorted row_before t
  /\ (forall N J x y z, In (N, J, x, y, z) t <-> 0 <= N <= M /\ 0 <= J <= 2 * N + 1
       /\ am_two N J = Ok x /\ two_one (sporbitals K) N J = Ok y /\ two_two (sporbitals K) N J = Ok z).
Proof. exact table_spec. Qed.
Print Assumptions C165_table.

(** C165.  ... and these are the angular momenta for which there is a state. *)
Theorem C165_complete : forall K N J y, N <= K -> two_one (sporbitals K) N J = Ok y -> (0 < y <-> 0 <= N /\ 0 <= J <= 2 * N + 1).
Proof. exact table_complete. Qed.
Print Assumptions C165_complete.

Example C165_pairs_case : lists_all (pair_state (both_within 1) 2) [((0, 1), (1, 3)); ((1, 1), (1, 3)); ((1, 3), (1, 3))]
  /\ lists_all (pair_state (pair_sum_within 1) 2) [((0, 1), (1, 3))].
Proof. exact pairs_case. Qed.

Example C165_table_case : two_body_table (sporbitals 1) 1
  = Ok [(0, 0, 1, 1, 1); (0, 1, 1, 1, 1); (1, 0, 5, 4, 2); (1, 1, 7, 6, 3); (1, 2, 3, 3, 1); (1, 3, 1, 1, 0)].
Proof. exact table_case. Qed.

(** C166.  The count exceeds the number of states of two identical nucleons by the number of orbitals that would be occupied twice with an odd J ... *)
Theorem C166_identical : forall K N J li ls, N <= K -> lists_all (identical_state (both_within N) J) li ->
  lists_all (fun a => same_orbital (both_within N) J a /\ Z.odd J = true) ls ->
  two_one (sporbitals K) N J = Ok (Z.of_nat (length li) + Z.of_nat (length ls)).
Proof. exact identical_nucleons. Qed.
Print Assumptions C166_identical.

(** C166.  ... with the two-body cut too ... *)
Theorem C166_identical_sum : forall K N J li ls, N <= K -> lists_all (identical_state (pair_sum_within N) J) li ->
  lists_all (fun a => same_orbital (pair_sum_within N) J a /\ Z.odd J = true) ls ->
  two_two (sporbitals K) N J = Ok (Z.of_nat (length li) + Z.of_nat (length ls)).
Proof. exact identical_nucleons_sum. Qed.
Print Assumptions C166_identical_sum.

(** C166.  ... so for even J it is that number. *)
Theorem C166_even : forall K N J li, N <= K -> Z.even J = true -> lists_all (identical_state (both_within N) J) li ->
  two_one (sporbitals K) N J = Ok (Z.of_nat (length li)).
Proof. exact even_J. Qed.
Print Assumptions C166_even.

(** C166.  Twice the count exceeds the number of states of a proton and a neutron by the number of orbitals that may hold both. *)
Theorem C166_proton_neutron : forall K N J lp ls y, N <= K -> lists_all (pn_state (both_within N) J) lp -> lists_all (same_orbital (both_within N) J) ls ->
  two_one (sporbitals K) N J = Ok y -> Z.of_nat (length lp) + Z.of_nat (length ls) = 2 * y.
Proof. exact proton_neutron. Qed.
Print Assumptions C166_proton_neutron.

(** C166 refuted: it is not the number of states of two identical nucleons ... *)
Theorem C166_identical_refuted : exists N J l, 0 <= N /\ lists_all (identical_state (both_within N) J) l
  /\ two_one (sporbitals N) N J <> Ok (Z.of_nat (length l)).
Proof. exact identical_refuted. Qed.
Print Assumptions C166_identical_refuted.

(** C166 refuted: ... nor of a proton and a neutron. *)
Theorem C166_proton_neutron_refuted : exists N J l, 0 <= N /\ lists_all (pn_state (both_within N) J) l /\ two_one (sporbitals N) N J <> Ok (Z.of_nat (length l)).
Proof. exact pn_refuted. Qed.
Print Assumptions C166_proton_neutron_refuted.

Example C166_case : lists_all (same_orbital (both_within 1) 3) [(1, 3)] /\ Z.odd 3 = true /\ two_one (sporbitals 1) 1 3 = Ok 1.
Proof. exact same_case. Qed.

(** C167.  The count by angular momentum is the number of pairs of orbitals ordered by their j only. *)
Theorem C167_pairs : forall N J l, lists_all (j_pair N J) l -> am_two N J = Ok (Z.of_nat (length l)).
Proof. exact am_pairs_spec. Qed.
Print Assumptions C167_pairs.

(** C167.  It exceeds the count in canonical order by the number of pairs of different orbitals with equal j, so it is never below. *)
Theorem C167_surplus : forall K N J x y l, N <= K -> am_two N J = Ok x -> two_one (sporbitals K) N J = Ok y ->
  lists_all (like_pair N J) l -> x = y + Z.of_nat (length l).
Proof. exact am_surplus. Qed.
Print Assumptions C167_surplus.

Example C167_case : lists_all (like_pair 1 0) [((0, 1), (1, 1))] /\ am_two 1 0 = Ok 5 /\ two_one (sporbitals 1) 1 0 = Ok 4.
Proof. exact like_case. Qed.

(** C168.  The three-body count by angular momentum, for one J1 ... *)
Theorem C168_triples : forall N J1 J l, Z.odd J = true -> lists_all (j_triple N J J1) l -> am_three_J1 N J1 J 0 = Ok (Z.of_nat (length l)).
Proof. exact am_triples_spec. Qed.
Print Assumptions C168_triples.

(** C168.  ... and for all: no J1 is left out. *)
Theorem C168_states : forall N J l, Z.odd J = true -> lists_all (j_state N J) l -> am_three N J = Ok (Z.of_nat (length l)).
Proof. exact am_states_spec. Qed.
Print Assumptions C168_states.

(** C168.  For all J1 together it is never below the count in canonical order ... *)
Theorem C168_bound : forall K N J, Z.odd J = true -> forall x y, am_three N J = Ok x -> dim_one (sporbitals K) N J = Ok y -> y <= x.
Proof. exact total_bound. Qed.
Print Assumptions C168_bound.

(** C168 refuted: ... but it may be for one J1. *)
Theorem C168_J1_bound_refuted : exists N J1 J x y, Z.odd J = true /\ am_three_J1 N J1 J 0 = Ok x /\ dim_one_J1 (sporbitals N) N J1 J = Ok y /\ x < y.
Proof. exact not_a_bound_refuted. Qed.
Print Assumptions C168_J1_bound_refuted.

Example C168_case : j_triple 2 5 3 ((2, 1), (2, 5), (2, 5)) /\ am_three_J1 2 3 5 0 = Ok 18 /\ dim_one_J1 (sporbitals 2) 2 3 5 = Ok 14
  /\ am_three 4 1 = Ok 1374 /\ dim_one (sporbitals 4) 4 1 = Ok 818.
Proof. exact triple_case. Qed.

