(** C38-C40, C62, C78: oscillator brackets. *)
From Coq Require Import List ZArith Reals Bool Lia Lra.
From Verif Require Import Base OscModel MoshModel MoshProof MoshMore.
Import ListNotations.
Open Scope Z_scope.

(** C38: evaluation ends; a request with non-negative arguments and equal numbers of quanta asks only for such brackets, with
    no more quanta; and no factorial is taken of a negative number, or of one above twice the quanta plus one. *)
Theorem C38_terminates : forall fmax w6j u6j k s, request fmax w6j u6j k s <> MFuel.
Proof. exact request_no_fuel. Qed.
Print Assumptions C38_terminates.
Theorem C38_asked : forall fmax w6j u6j depth k s v s',
  negative k = false /\ quanta_dot k = quanta k -> bracket fmax w6j u6j depth k s = MOk v s' ->
  exists new, asked s' = new ++ asked s
  /\ Forall (fun k' => (negative k' = false /\ quanta_dot k' = quanta k') /\ quanta k' <= quanta k) new.
Proof. exact bracket_asked. Qed.
Print Assumptions C38_asked.
Theorem C38_factorials : forall fmax w6j u6j k s, 2 * quanta k + 1 <= fmax -> request fmax w6j u6j k s <> MAbort.
Proof. intros fmax w6j u6j k s. exact (bracket_no_abort fmax w6j u6j (enough k) k s). Qed.
Print Assumptions C38_factorials.
(** the quotients by two whose factorials are taken are exact *)
Theorem C38_halves : forall l1 d1 l2 d2 kappa q, 0 <= l1 -> 0 <= d1 -> 0 <= l2 -> 0 <= d2 -> Z.even (l1 + d1 + (l2 + d2)) = true ->
  Z.abs (l1 - d1) <= kappa -> Z.abs (l2 - d2) <= kappa ->
  In q (by_two (kappa + Z.rem (kappa + d1 + l1) 2) (Z.min (d1 + l1) (d2 + l2))) ->
  kappa <= q <= d1 + l1 /\ q <= d2 + l2 /\ Z.even (d1 - l1 + q) = true /\ Z.even (d1 + l1 - q) = true /\ Z.even (d2 - l2 + q) = true /\ Z.even (d2 + l2 - q) = true.
Proof. exact a_range. Qed.
Print Assumptions C38_halves.
(** the 2s relative state of two particles of which one is in the 2s shell: the recursion visits the ground state once *)
Example C38_ex : forall w6j u6j, exists v s', request gsl_fact_max w6j u6j (K 1 0 0 0 1 0 0 0 0) start = MOk v s'
  /\ asked s' = [K 0 0 0 0 0 0 0 0 0; K 1 0 0 0 1 0 0 0 0] /\ length (cache s') = 2%nat.
Proof. intros. eexists. eexists. split; [reflexivity|]. split; reflexivity. Qed.
Example C38_ex2 : In 3 (by_two (1 + Z.rem (1 + 2 + 1) 2) (Z.min (2 + 1) (1 + 2))).
Proof. right. left. reflexivity. Qed.

(** C39: what a request returns does not depend on the requests made before. *)
Theorem C39_transparent : forall fmax w6j u6j h1 h2 s1 s2 k, history fmax w6j u6j h1 start = Some s1 -> history fmax w6j u6j h2 start = Some s2 ->
  returned (request fmax w6j u6j k s1) = returned (request fmax w6j u6j k s2).
Proof.
  intros fmax w6j u6j h1 h2 s1 s2 k H1 H2.
  exact (request_same fmax w6j u6j k s1 s2 (history_sound fmax w6j u6j h1 start s1 (sound_start fmax w6j u6j) H1)
           (history_sound fmax w6j u6j h2 start s2 (sound_start fmax w6j u6j) H2)).
Qed.
Print Assumptions C39_transparent.
Example C39_ex : forall w6j u6j, exists s, history gsl_fact_max w6j u6j [K 0 0 0 0 0 0 0 0 0; K 1 0 0 0 1 0 0 0 0] start = Some s
  /\ length (asked s) = 3%nat /\ length (cache s) = 2%nat.
Proof. intros. eexists. split; [reflexivity|]. split; reflexivity. Qed.

(** C40: a bracket is zero unless the quanta agree and both pairs of angular momenta couple to the total. *)
Theorem C40_selection : forall fmax w6j u6j k h s, history fmax w6j u6j h start = Some s ->
  quanta_dot k <> quanta k \/ allowed_triangle (l1_dot k) (l2_dot k) (kL k) = false \/ allowed_triangle (kl1 k) (kl2 k) (kL k) = false ->
  returned (request fmax w6j u6j k s) = Some 0%R.
Proof. exact forbidden_zero. Qed.
Print Assumptions C40_selection.
Example C40_ex : quanta_dot (K 1 0 0 1 1 1 1 0 1) <> quanta (K 1 0 0 1 1 1 1 0 1) /\ allowed_triangle 1 1 3 = false.
Proof. split; [discriminate|reflexivity]. Qed.

(** C62 (false of the code): brackets allowed by the selection rules can be evaluated.  From 85 quanta on the process ends
    in a factorial; at 36 quanta a product under the square root of the A coefficient is above the largest double although
    the whole radicand is below it. *)
Theorem C62_abort_refuted : exists k, (negative k = false /\ quanta_dot k = quanta k) /\ quanta k = 85
  /\ allowed_triangle (l1_dot k) (l2_dot k) (kL k) = true /\ allowed_triangle (kl1 k) (kl2 k) (kL k) = true
  /\ forall w6j u6j, request gsl_fact_max w6j u6j k start = MAbort.
Proof. exists (K 0 85 0 0 0 85 0 0 85). repeat split. Qed.
Print Assumptions C62_abort_refuted.
Theorem C62_no_abort : forall w6j u6j k s, quanta k <= 84 -> exists v s', request gsl_fact_max w6j u6j k s = MOk v s'.
Proof.
  intros w6j u6j k s H. pose proof (C38_terminates gsl_fact_max w6j u6j k s) as H1. pose proof (C38_factorials gsl_fact_max w6j u6j k s) as H2.
  destruct (request gsl_fact_max w6j u6j k s) as [v s'| |]; [eauto| |congruence]. exfalso. apply H2; [unfold gsl_fact_max; lia|reflexivity].
Qed.
Print Assumptions C62_no_abort.
Theorem C62_overflow_refuted : exists k kappa, (negative k = false /\ quanta_dot k = quanta k) /\ quanta k = 36 /\ kn1 k = 0 /\ kn2 k = 0
  /\ allowed_triangle (l1_dot k) (l2_dot k) (kL k) = true /\ allowed_triangle (kl1 k) (kl2 k) (kL k) = true
  /\ allowed_triangle (kl1 k) (l1_dot k) kappa = true /\ allowed_triangle (kl2 k) (l2_dot k) kappa = true
  /\ radicand_double (kl1 k) (l1_dot k) (kl2 k) (l2_dot k) kappa = Inf
  /\ (let '(l1, d1, l2, d2) := (kl1 k, l1_dot k, kl2 k, l2_dot k) in
      zf (l1 + d1 + kappa + 1) * zf (l1 + d1 - kappa) * zf (l1 - d1 + kappa) / zf (d1 - l1 + kappa)
      * (zf (l2 + d2 + kappa + 1) * zf (l2 + d2 - kappa) * zf (l2 - d2 + kappa)) / zf (d2 - l2 + kappa) <= dbl_max)%R.
Proof.
  exists (K 0 1 0 35 0 35 0 1 36), 36. do 9 (split; [repeat split|]); [|exact exact_36].
  exact overflow_36.
Qed.
Print Assumptions C62_overflow_refuted.

(** C78: the brackets obey r1^2 = (r^2 + R^2)/2 + r.R between the states with n1-1 and n1, r.R being the scalar product of two
    vectors with the elements of radial_oscillator_me.h; exchange of the particles reverses r; and the brackets with up to two
    quanta whose sum has one term have their values. *)
Theorem C78_recursion : forall fmax w6j u6j k, allowed_bracket k -> 0 < kn1 k -> 2 * quanta k + 1 <= fmax ->
  let '(m1, d1, m2, d2) := (n1_dot k, l1_dot k, n2_dot k, l2_dot k) in
  let '(n1, l1, n2, l2, L) := (kn1 k, kl1 k, kn2 k, kl2 k, kL k) in
  (rsq_up n1 l1 * bval fmax w6j u6j k =
   1 / 2 * rsq_up m1 d1 * bval fmax w6j u6j (K (m1 - 1) d1 m2 d2 (n1 - 1) l1 n2 l2 L)
   + 1 / 2 * rsq_up m2 d2 * bval fmax w6j u6j (K m1 d1 (m2 - 1) d2 (n1 - 1) l1 n2 l2 L)
   + (dot_up w6j m1 d1 m2 d2 (m1 - 1) (d1 + 1) (m2 - 1) (d2 + 1) L * bval fmax w6j u6j (K (m1 - 1) (d1 + 1) (m2 - 1) (d2 + 1) (n1 - 1) l1 n2 l2 L)
      + dot_up w6j m1 d1 m2 d2 (m1 - 1) (d1 + 1) m2 (d2 - 1) L * bval fmax w6j u6j (K (m1 - 1) (d1 + 1) m2 (d2 - 1) (n1 - 1) l1 n2 l2 L)
      + dot_up w6j m1 d1 m2 d2 m1 (d1 - 1) (m2 - 1) (d2 + 1) L * bval fmax w6j u6j (K m1 (d1 - 1) (m2 - 1) (d2 + 1) (n1 - 1) l1 n2 l2 L)
      + dot_up w6j m1 d1 m2 d2 m1 (d1 - 1) m2 (d2 - 1) L * bval fmax w6j u6j (K m1 (d1 - 1) m2 (d2 - 1) (n1 - 1) l1 n2 l2 L)))%R.
Proof. exact recursion. Qed.
Print Assumptions C78_recursion.
Theorem C78_exchange : forall fmax w6j u6j k, allowed_bracket k -> kn1 k = 0 -> 0 < kn2 k -> 2 * quanta k + 1 <= fmax ->
  bval fmax w6j u6j k = (parity_sign (kl1 k + kl2 k - kL k) * parity_sign (l1_dot k)
    * bval fmax w6j u6j (K (n1_dot k) (l1_dot k) (n2_dot k) (l2_dot k) (kn2 k) (kl2 k) (kn1 k) (kl1 k) (kL k)))%R.
Proof. exact exchange. Qed.
Print Assumptions C78_exchange.
Theorem C78_seeds : forall fmax w6j u6j m1 d1 m2 d2 l1 l2 L, 2 * (l1 + l2) + 1 <= fmax -> allowed_bracket (K m1 d1 m2 d2 0 l1 0 l2 L) ->
  bval fmax w6j u6j (K m1 d1 m2 d2 0 l1 0 l2 L) = seed_sum u6j m1 d1 m2 d2 l1 l2 L.
Proof. exact seed_formula. Qed.
Print Assumptions C78_seeds.
Theorem C78_values : forall fmax w6j u6j, u6j_stretched u6j -> 5 <= fmax ->
  Forall (fun '(k, s, z) => bval fmax w6j u6j k = (s * sqrt z)%R)
  [ (K 0 0 0 0 0 0 0 0 0, 1, 1);
    (K 0 0 0 1 0 0 0 1 1, 1, 1 / 2); (K 0 0 0 1 0 1 0 0 1, 1, 1 / 2); (K 0 1 0 0 0 0 0 1 1, -1, 1 / 2); (K 0 1 0 0 0 1 0 0 1, 1, 1 / 2);
    (K 0 0 0 2 0 0 0 2 2, 1, 1 / 4); (K 0 0 0 2 0 1 0 1 2, 1, 1 / 2); (K 0 0 0 2 0 2 0 0 2, 1, 1 / 4);
    (K 0 1 0 1 0 0 0 2 2, -1, 1 / 2); (K 0 1 0 1 0 2 0 0 2, 1, 1 / 2);
    (K 0 2 0 0 0 0 0 2 2, 1, 1 / 4); (K 0 2 0 0 0 1 0 1 2, -1, 1 / 2); (K 0 2 0 0 0 2 0 0 2, 1, 1 / 4);
    (K 0 0 1 0 0 1 0 1 0, 1, 1 / 2); (K 1 0 0 0 0 1 0 1 0, -1, 1 / 2) ]%R.
Proof. exact small_values. Qed.
Print Assumptions C78_values.
(** the recursion from the ground state: <10 00|10 00;0> = 1/2 *)
Example C78_ex : forall w6j, allowed_bracket (K 1 0 0 0 1 0 0 0 0) /\ u6j_stretched (fun _ _ _ _ _ _ => 1%R)
  /\ bval gsl_fact_max w6j (fun _ _ _ _ _ _ => 1%R) (K 1 0 0 0 1 0 0 0 0) = (1 / 2)%R.
Proof.
  intros w6j. assert (U : u6j_stretched (fun _ _ _ _ _ _ => 1%R)) by (intros a b c d e f _ _ _ _ _; reflexivity).
  split; [repeat split|split; [exact U|]]. apply two_s; [unfold gsl_fact_max; lia|exact U].
Qed.
