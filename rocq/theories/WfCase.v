(** Mesh properties gathered; single functions; cases. *)
From Coq Require Import List ZArith Reals Bool Lra Lia.
From Verif Require Import Base WfModel WfSpec WfLag WfInt WfProof WfOsc WfEl WfSqr WfMesh WfGrid WfFinal.
Import ListNotations.
Open Scope R_scope.

Lemma mesh_points : forall n i, (0 < n)%nat -> length (uniform_mesh (S n)) = S n /\ ((i <= n)%nat -> nth_error (uniform_mesh (S n)) i = Some (INR i / INR n)).
Proof. intros n i Hn. split; [apply uniform_length|]. intros Hi. rewrite uniform_nth by lia. rewrite mesh_point_val by lia. reflexivity. Qed.
Lemma mesh_map : forall pos b, 0 < b -> exists T J,
  (forall z, z < 1 -> transformed pos b z = Fin (T z) /\ jacobian pos b z = Fin (J z) /\ derivable_pt_lim T z (J z))
  /\ (forall y z, y < z -> z < 1 -> T y < T z)
  /\ T 0 = 0 /\ (forall r, 0 <= r -> exists z, 0 <= z < 1 /\ T z = r)
  /\ transformed pos b 1 = Inf true /\ jacobian pos b 1 = Inf true
  /\ (forall f v, integral f v <-> integral01 (fun z => f (T z) * J z) v).
Proof.
  intros pos b Hb. set (c := if pos then b else / b). assert (Hc : 0 < c) by (unfold c; destruct pos; [exact Hb|apply Rinv_0_lt_compat; exact Hb]).
  exists (Tz c), (Jz c). split; [|split; [|split; [|split; [|split; [|split]]]]].
  - intros z Hz. destruct (transformed_fin b z Hb Hz) as (T1 & J1 & T2 & J2). destruct pos; (split; [assumption|split; [assumption|apply Tz_derivative; exact Hz]]).
  - intros y z Hy Hz. apply Tz_increasing; assumption.
  - unfold Tz. field.
  - intros r Hr. destruct (Tz_onto c r Hc Hr) as (A & B). eexists. split; [exact A|exact B].
  - apply transformed_one; exact Hb.
  - apply transformed_one; exact Hb.
  - intros f v. apply mesh_integral. exact Hc.
Qed.
Lemma endpoints : forall x a y, fix_endpoints (x :: a ++ [y]) = Ok ((if finite x then x else Fin 0) :: a ++ [if finite y then y else Fin 0]).
Proof. intros x a y. unfold fix_endpoints. f_equal. apply (fix_last_app ((if finite x then x else Fin 0) :: a) y). Qed.
Lemma single_function : forall tgamma pos l b coord shift nmax n, (Z.of_nat n <= nmax)%Z ->
  nth_error (wave_functions tgamma pos nmax l b coord shift) n = Some (wave_function tgamma pos (Z.of_nat n) l b coord shift)
  /\ length (wave_function tgamma pos (Z.of_nat n) l b coord shift) = length coord
  /\ (forall i c, nth_error coord i = Some c -> exists v, wave_function tgamma pos (Z.of_nat n) l b [c] shift = [v]
        /\ nth_error (wave_function tgamma pos (Z.of_nat n) l b coord shift) i = Some v).
Proof.
  intros tgamma pos l b coord shift nmax n H. split; [apply wave_function_same, H|]. rewrite wave_function_row. split; [apply map_length|].
  intros i c Hc. rewrite wave_function_row. unfold row. eexists. split; [reflexivity|]. rewrite nth_error_map, Hc. reflexivity.
Qed.
Lemma scalar_0 : forall tgamma pos l b c shift, exists v, wave_function1 tgamma pos 0 l b c shift = Ok v /\ wave_function tgamma pos 0 l b [c] shift = [v].
Proof. intros. eexists. split; reflexivity. Qed.
Lemma scalar_refuted : exists n, (0 < n)%Z /\ forall tgamma pos l b c shift, wave_function1 tgamma pos n l b c shift = UB.
Proof. exists 1%Z. split; [lia|]. intros. apply wave_function1_UB. lia. Qed.
Lemma momentum_refuted : exists l n m, n <> m /\ forall tgamma b, gamma_fn tgamma -> 0 < b ->
  exists v, 0 < v /\ integral (fun k => code_value tgamma false n l b 0 k * code_value tgamma false m l b 0 k) v.
Proof.
  exists 0%nat, 2%nat, 0%nat. split; [lia|]. intros tgamma b Ht Hb. exists (wrong_part 0). split; [apply wrong_part_pos|apply momentum_overlap; assumption].
Qed.
Lemma xform_one : forall tgamma L i j v, gamma_fn tgamma ->
  integral (fun r => osc (tgamma (INR L + 3 / 2)) i L 1 r * osc (tgamma (INR L + 3 / 2)) j L 1 r) v -> v = delta i j.
Proof. intros tgamma L i j v Ht H. apply (integral_unique _ _ _ H). apply orthonormal; [apply Ht|lra]. Qed.

(** * cases *)
Lemma case_value : forall tgamma, 0 < tgamma (INR 0 + 3 / 2) ->
  wave_functions tgamma true 1 0 1 [Fin 1; Fin 0; Inf true] 0 =
    [[Fin (sqrt (2 / tgamma (INR 0 + 3 / 2)) * exp (- 1 / 2)); Fin 0; NaN];
     [Fin (sqrt (4 / (3 * tgamma (INR 0 + 3 / 2))) * exp (- 1 / 2) * (1 / 2)); Fin 0; NaN]].
Proof.
  intros tgamma Hg. set (g := tgamma (INR 0 + 3 / 2)) in *. rewrite wave_functions_rows. change (Z.to_nat (1 + 1)) with 2%nat. unfold row. cbn [seq map].
  assert (H1 : 0 < INR 0 + 1 + 0) by (cbn; lra).
  pose proof (fun n => point_pos tgamma 0 1 0 Hg Rlt_0_1 n 1 Rlt_0_1) as P. pose proof (fun n => point_zero tgamma 0 1 0 Hg Rlt_0_1 n H1) as Z0.
  pose proof (fun n => point_inf tgamma 0 1 0 Hg Rlt_0_1 n H1) as I. change (Z.of_nat 0) with 0%Z in *. rewrite !P, !Z0, !I, Rpower_0. fold g.
  assert (E0 : osc g 0 0 1 1 = sqrt (2 / g) * exp (-1 / 2)).
  { unfold osc. rewrite lag_0. cbn [fact poch pow Nat.add]. change (INR 1) with 1.
    replace (2 * 1 / (1 * (g * 1))) with (2 / g) by (field; lra). replace (- (1 / 1 * (1 / 1)) / 2) with (-1 / 2) by field. field. }
  assert (E1 : osc g 1 0 1 1 = sqrt (4 / (3 * g)) * exp (-1 / 2) * (1 / 2)).
  { unfold osc. rewrite lag_1. cbn [fact poch pow Nat.add Nat.mul]. change (INR 1) with 1. change (INR 0) with 0.
    replace (2 * 1 / (1 * (g * (1 * (0 + 3 / 2 + 0))))) with (4 / (3 * g)) by (field; lra). replace (- (1 / 1 * (1 / 1)) / 2) with (-1 / 2) by field. field. }
  rewrite E0, E1, !Rmult_1_l. reflexivity.
Qed.
Lemma case_gamma : exists tgamma, gamma_fn tgamma /\ 0 < tgamma (INR 0 + 3 / 2) /\ tgamma (INR 1 + 3 / 2) = 3 / 2 * tgamma (INR 0 + 3 / 2)
  /\ integral (fun r => code_value tgamma true 3 1 2 (-1) r * code_value tgamma true 3 1 2 1 r) 1
  /\ integral (fun r => code_value tgamma true 3 1 2 0 r * code_value tgamma true 0 1 2 0 r) 0.
Proof.
  destruct gamma_fn_exists as (f & H). exists f. split; [exact H|]. split; [apply gamma_fn_pos, H|]. split; [rewrite (gamma_fn_step f 0 H); cbn; field|].
  split; [pose proof (code_orthonormal f 1 2 3 3 (-1) H ltac:(lra)) as K|pose proof (code_orthonormal f 1 2 3 0 0 H ltac:(lra)) as K].
  - replace (- (-1)) with 1 in K by ring. exact K.
  - rewrite Ropp_0 in K. exact K.
Qed.
Lemma case_mesh : uniform_mesh 3 = [0 / (INR 3 - 1); 1 / (INR 3 - 1); 1] /\ transformed true 2 (1 / 2) = Fin 2 /\ jacobian false 2 (1 / 2) = Fin 2
  /\ fix_endpoints [NaN; Fin 1; Inf true] = Ok [Fin 0; Fin 1; Fin 0].
Proof.
  split; [reflexivity|]. unfold transformed, jacobian. rewrite !fdiv_pos by lra. cbn [fmul].
  split; [f_equal; field|]. split; [f_equal; field|reflexivity].
Qed.
Lemma endpoints_empty : fix_endpoints [] = AssertFail.
Proof. reflexivity. Qed.
Lemma scalar_negative : forall tgamma pos n l b c shift, (n < 0)%Z -> wave_function1 tgamma pos n l b c shift = Ok (Fin 0).
Proof. intros tgamma pos n l b c shift H. unfold wave_function1. rewrite (proj2 (Z.ltb_lt _ _) H). reflexivity. Qed.
