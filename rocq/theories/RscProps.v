(** C169-C171: radial-scale, the table of oscillator brackets and make-radial-permutation.
    The definitions used in the statements are in RscSpec.v and RscModel.v (code). *)
From Coq Require Import List ZArith Reals Bool Permutation Sorted.
From Verif Require Import Base RMat H2Model MapModel OscModel BlockModel WfModel RscModel RscSpec RscProof RscFinal.
Import ListNotations.
Open Scope Z_scope.

(** C169.  Whatever the order of the parallel iterations, every element is multiplied by the ratio for its species to the power of the operator (r^k: k, k^k: -k), and nothing else changes. *)
Theorem C169_elements : forall single order p n f, file_ok f -> can_scale f -> Permutation order (seq 0 (length (rf_sectors f))) -> p <> 0%R -> n <> 0%R ->
  exists g, radial_scale single order p n f = Ok g /\ same_operator f g
  /\ forall ix i j s e, element f ix i j e -> sector_species f ix s ->
       element g ix i j (fmul e (single (Fin (powerRZ (by_species p n s) (length_power f))))).
Proof. exact scaled_elements. Qed.
Print Assumptions C169_elements.

(** C169.  So elements of the operator between oscillator functions become those between functions whose length is changed by the ratio. *)
Theorem C169_lengths : forall single order p n f bp bn el, exact single -> file_ok f -> can_scale f -> Permutation order (seq 0 (length (rf_sectors f))) ->
  p <> 0%R -> n <> 0%R -> has_lengths bp bn el f ->
  exists g, radial_scale single order p n f = Ok g /\ same_operator f g /\ has_lengths (p * bp) (n * bn) el g.
Proof. exact scaled_lengths. Qed.
Print Assumptions C169_lengths.

(** C169.  Scaling twice is scaling by the product of the ratios. *)
Theorem C169_twice : forall single order p n p' n' f, exact single -> file_ok f -> can_scale f -> Permutation order (seq 0 (length (rf_sectors f))) ->
  p <> 0%R -> n <> 0%R -> p' <> 0%R -> n' <> 0%R ->
  exists g h k, radial_scale single order p n f = Ok g /\ radial_scale single order p' n' g = Ok h /\ radial_scale single order (p' * p) (n' * n) f = Ok k
  /\ same_operator k h
  /\ forall ix i j s v, element f ix i j (Fin v) -> sector_species f ix s -> exists e, element h ix i j e /\ element k ix i j e.
Proof. exact scaled_twice. Qed.
Print Assumptions C169_twice.

(** C169.  Exactly overlaps, generic operators and operators that change the charge are refused. *)
Theorem C169_refusals : forall single order p n f, file_ok f -> Permutation order (seq 0 (length (rf_sectors f))) -> -2147483648 < rf_power f <= 2147483647 ->
  (radial_scale single order p n f = Exit <-> rf_type f = RO \/ rf_type f = RG \/ rf_Tz0 f <> 0)
  /\ (rf_type f <> RO /\ rf_type f <> RG /\ rf_Tz0 f = 0 -> exists g, radial_scale single order p n f = Ok g).
Proof. exact refusals. Qed.
Print Assumptions C169_refusals.

(** C169 refuted: a ratio of zero is accepted, and the elements of momentum operators are then no numbers. *)
Theorem C169_numbers_refuted : exists f g, file_ok f /\ can_scale f /\ element f 0 0 0 (Fin 0)
  /\ radial_scale (fun x => x) [0%nat] 0 0 f = Ok g /\ element g 0 0 0 NaN.
Proof. exact zero_ratio_refuted. Qed.
Print Assumptions C169_numbers_refuted.

Example C169_case : forall single, exact single -> exists g, radial_scale single [1%nat; 0%nat] 2 3 radius_file = Ok g
  /\ element g 0 0 0 (Fin 6) /\ element g 1 0 0 (Fin (27 / 2)).
Proof. exact scale_case. Qed.

(** C170.  The states listed for N and L are those of two orbitals with N quanta together that couple to L ... *)
Theorem C170_states : forall N L s, 0 <= L -> (In s (two_body_space N L) <-> nl_state N L s).
Proof. exact space_complete. Qed.
Print Assumptions C170_states.

(** C170.  ... in the order of the header ... *)
Theorem C170_states_order : forall N L, StronglySorted state_before (two_body_space N L).
Proof. exact space_sorted. Qed.
Print Assumptions C170_states_order.

(** C170.  ... each once. *)
Theorem C170_states_once : forall N L, NoDup (two_body_space N L).
Proof. exact space_nodup. Qed.
Print Assumptions C170_states_once.

(** C170.  The lines of the table are the brackets between all pairs of states with the same quanta and the same L ... *)
Theorem C170_lines : forall D (bracket : nlpair -> nlpair -> Z -> D) N_max bra ket L v,
  In (bra, ket, L, v) (bracket_table bracket N_max)
  <-> v = bracket bra ket L /\ exists N, N <= N_max /\ nl_state N L bra /\ nl_state N L ket.
Proof. exact table_complete. Qed.
Print Assumptions C170_lines.

(** C170.  ... ordered by N, L, bra and ket ... *)
Theorem C170_lines_order : forall D (bracket : nlpair -> nlpair -> Z -> D) N_max, StronglySorted (line_before) (bracket_table bracket N_max).
Proof. exact table_sorted. Qed.
Print Assumptions C170_lines_order.

(** C170.  ... each once. *)
Theorem C170_lines_once : forall D (bracket : nlpair -> nlpair -> Z -> D) N_max, NoDup (bracket_table bracket N_max).
Proof. exact table_nodup. Qed.
Print Assumptions C170_lines_once.

Example C170_case : Z.of_nat (length (bracket_table (fun _ _ _ => tt) 6)) = 1456 /\ two_body_space 2 1 = [((1, 1), (1, 1))]
  /\ two_body_space 2 2 = [((0, 0), (2, 2)); ((1, 1), (1, 1)); ((2, 2), (0, 0))].
Proof. exact table_case. Qed.

(** C171.  For sectors between subspaces with the same l the assertion on the dimensions holds, and every block reverses the order of the radial functions. *)
Theorem C171_blocks : forall Nmax sectors, same_l (oscillator_space Nmax) sectors ->
  exists ms, radial_permutation Nmax sectors = Ok ms /\ length ms = length sectors
  /\ forall ix x m, nth_error sectors ix = Some x -> nth_error ms ix = Some m -> rows m = sub_dim (oscillator_space Nmax) (fst x) /\ reverses m.
Proof. exact permutation_blocks. Qed.
Print Assumptions C171_blocks.

(** C171.  Multiplication by such a block reverses the order of the rows ... *)
Theorem C171_rows : forall m a, reverses m -> rows a = rows m ->
  exists b, mmul m a = Ok b /\ rows b = rows a /\ cols b = cols a
  /\ forall i j, (i < rows a)%nat -> (j < cols a)%nat -> at_ b i j = at_ a (rows a - 1 - i) j.
Proof. exact reverses_rows. Qed.
Print Assumptions C171_rows.

(** C171.  ... so the transformation is its own inverse. *)
Theorem C171_twice : forall m, reverses m -> exists b, mmul m m = Ok b /\ rows b = rows m /\ cols b = cols m
  /\ forall i j, (i < rows m)%nat -> (j < cols m)%nat -> at_ b i j = if Nat.eqb i j then 1%R else 0%R.
Proof. exact reverses_twice. Qed.
Print Assumptions C171_twice.

Example C171_case : exists ms, radial_permutation 2 [(0, 0); (5, 5)]%nat = Ok ms /\ length ms = 2%nat
  /\ forall m, nth_error ms 0 = Some m -> rows m = 2%nat /\ at_ m 0%nat 1%nat = 1%R /\ at_ m 0%nat 0%nat = 0%R.
Proof. exact permutation_case. Qed.

