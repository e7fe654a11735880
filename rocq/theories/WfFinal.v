(** What the functions of oscillator_wf.h, mesh.h and relative_xform.cpp return. *)
From Coq Require Import List ZArith Reals Bool Lra Lia.
From Verif Require Import Base WfModel WfSpec WfLag WfInt WfProof WfOsc WfEl WfSqr WfMesh WfGrid.
Import ListNotations.
Open Scope R_scope.

(** the number the code returns at one point (0 if it is none) *)
Definition code_value (tgamma : R -> R) (pos : bool) (n l : nat) (b shift r : R) : R :=
  match wave_function tgamma pos (Z.of_nat n) (Z.of_nat l) b [Fin r] shift with [Fin v] => v | _ => 0 end.

Lemma gamma_fn_pos : forall f l, gamma_fn f -> 0 < f (INR l + 3 / 2).
Proof. intros f l H. apply (gamma_pos l), H. Qed.
Lemma gamma_fn_unique : forall f h l, gamma_fn f -> gamma_fn h -> f (INR l + 3 / 2) = h (INR l + 3 / 2).
Proof. intros f h l F H. apply (integral_unique _ _ _ (F l) (H l)). Qed.
Lemma gamma_fn_step : forall f l, gamma_fn f -> f (INR (S l) + 3 / 2) = (INR l + 3 / 2) * f (INR l + 3 / 2).
Proof. intros f l F. apply (integral_unique _ _ _ (F (S l))). apply gamma_next, F. Qed.

Section Position.
Variables (tgamma : R -> R) (l : nat) (b : R).
Hypotheses (Hg : 0 < tgamma (INR l + 3 / 2)) (Hb : 0 < b).
Lemma closed_form : forall shift nmax n coord i r, (Z.of_nat n <= nmax)%Z -> nth_error coord i = Some (Fin r) -> 0 < r ->
  exists w, nth_error (wave_functions tgamma true nmax (Z.of_nat l) b coord shift) n = Some w
    /\ nth_error w i = Some (Fin (Rpower r shift * osc (tgamma (INR l + 3 / 2)) n l b r)).
Proof.
  intros shift nmax n coord i r Hn Hc Hr. eexists. split; [apply wave_functions_nth, Hn|]. unfold row. rewrite nth_error_map, Hc. cbn [option_map].
  rewrite point_pos by assumption. reflexivity.
Qed.
Lemma closed_form0 : forall shift nmax n coord i, (Z.of_nat n <= nmax)%Z -> nth_error coord i = Some (Fin 0) -> 0 < INR l + 1 + shift ->
  exists w, nth_error (wave_functions tgamma true nmax (Z.of_nat l) b coord shift) n = Some w /\ nth_error w i = Some (Fin 0).
Proof.
  intros shift nmax n coord i Hn Hc Hs. eexists. split; [apply wave_functions_nth, Hn|]. unfold row. rewrite nth_error_map, Hc. cbn [option_map].
  rewrite point_zero by assumption. reflexivity.
Qed.
Lemma closed_form_inf : forall shift nmax n coord i, (Z.of_nat n <= nmax)%Z -> nth_error coord i = Some (Inf true) -> 0 < INR l + 1 + shift ->
  exists w, nth_error (wave_functions tgamma true nmax (Z.of_nat l) b coord shift) n = Some w /\ nth_error w i = Some NaN.
Proof.
  intros shift nmax n coord i Hn Hc Hs. eexists. split; [apply wave_functions_nth, Hn|]. unfold row. rewrite nth_error_map, Hc. cbn [option_map].
  rewrite point_inf by assumption. reflexivity.
Qed.
Lemma code_value_pos : forall n shift r, 0 < r -> code_value tgamma true n l b shift r = Rpower r shift * osc (tgamma (INR l + 3 / 2)) n l b r.
Proof. intros n shift r Hr. unfold code_value. rewrite wave_function_row. unfold row. cbn [map]. rewrite point_pos by assumption. reflexivity. Qed.
End Position.
Lemma shapes : forall tgamma pos nmax l b coord shift, (-1 <= nmax)%Z ->
  Z.of_nat (length (wave_functions tgamma pos nmax l b coord shift)) = (nmax + 1)%Z
  /\ Forall (fun w => length w = length coord) (wave_functions tgamma pos nmax l b coord shift).
Proof.
  intros tgamma pos nmax l b coord shift H. rewrite wave_functions_rows. split; [rewrite map_length, seq_length; lia|].
  apply Forall_map, Forall_forall. intros i _. unfold row. apply map_length.
Qed.
Lemma code_orthonormal : forall tgamma l b n m shift, gamma_fn tgamma -> 0 < b ->
  integral (fun r => code_value tgamma true n l b shift r * code_value tgamma true m l b (- shift) r) (delta n m).
Proof.
  intros tgamma l b n m shift Ht Hb. pose proof (gamma_fn_pos tgamma l Ht) as Hg.
  eapply integral_ext; [|apply (orthonormal l _ b n m (Ht l) Hb)]. intros r Hr. cbn beta. rewrite !code_value_pos by assumption.
  assert (E : Rpower r shift * Rpower r (- shift) = 1) by (rewrite <- Rpower_plus, Rplus_opp_r; apply Rpower_O; exact Hr).
  replace (Rpower r shift * osc (tgamma (INR l + 3 / 2)) n l b r * (Rpower r (- shift) * osc (tgamma (INR l + 3 / 2)) m l b r))
    with (Rpower r shift * Rpower r (- shift) * (osc (tgamma (INR l + 3 / 2)) n l b r * osc (tgamma (INR l + 3 / 2)) m l b r)) by ring.
  rewrite E. ring.
Qed.

(** * momentum functions *)
Section Momentum.
Variables (tgamma : R -> R) (l : nat) (b shift : R).
Hypotheses (Hg : 0 < tgamma (INR l + 3 / 2)) (Hb : 0 < b).
Let Hi : 0 < / b := Rinv_0_lt_compat b Hb.
Lemma unitless_k : forall k, unitless false b (Fin k) = unitless true (/ b) (Fin k).
Proof. intros k. unfold unitless. cbn [fmul]. rewrite fdiv_pos by nra. f_equal. field. lra. Qed.
Lemma rec0_k : forall t, rec0 tgamma false (Z.of_nat l) b shift (Fin t) = rec0 tgamma true (Z.of_nat l) (/ b) shift (Fin t).
Proof.
  intros t. unfold rec0. rewrite IZR_l. set (g := tgamma (INR l + 3 / 2)) in *. assert (0 < / b * g) by (apply Rmult_lt_0_compat; assumption).
  rewrite !fdiv_pos, !fsqrt_nonneg by (try assumption; left; apply Rdiv_lt_0_compat; lra). rewrite !(fpow_pos b), !(fpow_pos (/ b)) by assumption.
  replace (Rpower (/ b) shift) with (Rpower b (- shift)) by (unfold Rpower; rewrite ln_Rinv by exact Hb; f_equal; ring).
  replace (2 / (/ b * g)) with (2 * b / g) by (field; split; lra). reflexivity.
Qed.
Lemma point_k0 : forall k, point tgamma false (Z.of_nat l) b shift 0 (Fin k) = point tgamma true (Z.of_nat l) (/ b) shift 0 (Fin k).
Proof. intros k. unfold point. rewrite unitless_k, (unitless_fin (/ b) Hi). apply rec0_k. Qed.
Lemma momentum_0 : forall k, 0 < k -> code_value tgamma false 0 l b shift k = Rpower k shift * osc (tgamma (INR l + 3 / 2)) 0 l (/ b) k.
Proof. intros k Hk. unfold code_value. rewrite wave_function_row. unfold row. cbn [map]. rewrite point_k0, point_pos by assumption. reflexivity. Qed.
Lemma rec1_k : forall t w, rec1 false (Z.of_nat l) (Fin t) (Fin w) = Fin (- ((3 / 2 + INR l - t) / sqrt (INR l + 3 / 2) * w)).
Proof.
  intros t w. unfold rec1, coord_sign. rewrite IZR_l, fsqrt_nonneg by (pose proof (pos_INR l); lra). cbn [fsub fadd fneg].
  rewrite fdiv_pos by (apply sqrt_lt_R0, l32). cbn [fmul]. f_equal. unfold Rminus. ring.
Qed.
Lemma point_k1 : forall k, 0 < k -> point tgamma false (Z.of_nat l) b shift 1 (Fin k) = Fin (- (Rpower k shift * osc (tgamma (INR l + 3 / 2)) 1 l (/ b) k)).
Proof.
  intros k Hk.
  change (point tgamma false (Z.of_nat l) b shift 1 (Fin k)) with (rec1 false (Z.of_nat l) (unitless false b (Fin k)) (point tgamma false (Z.of_nat l) b shift 0 (Fin k))).
  pose proof (point_pos tgamma l (/ b) shift Hg Hi 1 k Hk) as P1.
  change (point tgamma true (Z.of_nat l) (/ b) shift 1 (Fin k)) with (rec1 true (Z.of_nat l) (unitless true (/ b) (Fin k)) (point tgamma true (Z.of_nat l) (/ b) shift 0 (Fin k))) in P1.
  rewrite point_k0, unitless_k. rewrite (point_pos tgamma l (/ b) shift Hg Hi 0 k Hk) in *. rewrite (unitless_fin (/ b) Hi) in *. rewrite rec1_fin in P1. rewrite rec1_k.
  injection P1 as P1. rewrite P1. reflexivity.
Qed.
Lemma momentum_1 : forall k, 0 < k -> code_value tgamma false 1 l b shift k = - (Rpower k shift * osc (tgamma (INR l + 3 / 2)) 1 l (/ b) k).
Proof. intros k Hk. unfold code_value. rewrite wave_function_row. unfold row. cbn [map]. rewrite point_k1 by assumption. reflexivity. Qed.
Lemma recn_k : forall k t w1 w2, recn false (Z.of_nat (k + 2)) (Z.of_nat l) (Fin t) (Fin w1) (Fin w2)
  = Fin (- (((2 * (INR k + 2) + INR l - 1 / 2 - t) * w1 - sqrt ((INR k + 1) * (INR k + 2 + INR l - 1 / 2)) * w2) / sqrt ((INR k + 2) * (INR k + 2 + INR l + 1 / 2)))).
Proof.
  intros k t w1 w2. pose proof (pos_INR k). pose proof (pos_INR l).
  unfold recn, coord_sign. rewrite !Nat2Z.inj_add, ?minus_IZR, ?plus_IZR, ?mult_IZR, ?plus_IZR, !IZR_l. change (INR 2) with 2.
  rewrite !fsqrt_nonneg by nra. cbn [fneg fadd fmul fsub]. assert (P : 0 < sqrt ((INR k + 2) * (INR k + 2 + INR l + 1 / 2))) by (apply sqrt_lt_R0; nra).
  rewrite fdiv_pos by exact P. f_equal. replace (INR k + 2 - 1) with (INR k + 1) by ring. unfold Rminus, Rdiv. ring.
Qed.
Definition wrong_part : R := 2 * (sqrt (INR l + 3 / 2) / sqrt (2 * (INR l + 5 / 2))).
Lemma wrong_part_pos : 0 < wrong_part.
Proof. pose proof (pos_INR l). unfold wrong_part. apply Rmult_lt_0_compat; [lra|]. apply Rdiv_lt_0_compat; apply sqrt_lt_R0; lra. Qed.
Lemma momentum_2 : forall k, 0 < k -> code_value tgamma false 2 l b shift k
  = Rpower k shift * (osc (tgamma (INR l + 3 / 2)) 2 l (/ b) k + wrong_part * osc (tgamma (INR l + 3 / 2)) 0 l (/ b) k).
Proof.
  intros k Hk. unfold code_value. rewrite wave_function_row. unfold row. cbn [map]. rewrite (point_step tgamma false (Z.of_nat l) b shift (Fin k) 0).
  pose proof (point_step tgamma true (Z.of_nat l) (/ b) shift (Fin k) 0) as P2. rewrite !point_pos in P2 by assumption.
  rewrite point_k1, point_k0, point_pos by assumption. rewrite unitless_k. rewrite (unitless_fin (/ b) Hi) in *. rewrite recn_fin in P2. rewrite recn_k.
  injection P2 as P2. set (g := tgamma (INR l + 3 / 2)) in *. set (p := Rpower k shift) in *. change (INR 0) with 0 in *.
  replace ((0 + 1) * (0 + 2 + INR l - 1 / 2)) with (INR l + 3 / 2) in * by field. replace ((0 + 2) * (0 + 2 + INR l + 1 / 2)) with (2 * (INR l + 5 / 2)) in * by field.
  replace (p * (osc g 2 l (/ b) k + wrong_part * osc g 0 l (/ b) k)) with (p * osc g 2 l (/ b) k + p * (wrong_part * osc g 0 l (/ b) k)) by ring. rewrite P2. unfold wrong_part. pose proof (pos_INR l).
  assert (0 < sqrt (2 * (INR l + 5 / 2))) by (apply sqrt_lt_R0; lra). field. lra.
Qed.
End Momentum.
Lemma momentum_overlap : forall tgamma l b, gamma_fn tgamma -> 0 < b ->
  integral (fun k => code_value tgamma false 2 l b 0 k * code_value tgamma false 0 l b 0 k) (wrong_part l).
Proof.
  intros tgamma l b Ht Hb. pose proof (gamma_fn_pos tgamma l Ht) as Hg. assert (Hi : 0 < / b) by (apply Rinv_0_lt_compat; exact Hb).
  pose proof (orthonormal l _ (/ b) 2 0 (Ht l) Hi) as O2. pose proof (integral_scal (wrong_part l) _ _ (orthonormal l _ (/ b) 0 0 (Ht l) Hi)) as O0.
  pose proof (integral_plus _ _ _ _ O2 O0) as K. unfold delta in K. cbn [Nat.eqb] in K.
  eapply integral_val; [|eapply integral_ext; [|exact K]]; [ring|]. intros k Hk. cbn beta. rewrite momentum_2, momentum_0 by assumption. rewrite Rpower_0. ring.
Qed.
Lemma momentum_norm : forall tgamma l b, gamma_fn tgamma -> 0 < b ->
  integral (fun k => code_value tgamma false 2 l b 0 k * code_value tgamma false 2 l b 0 k) (1 + wrong_part l * wrong_part l).
Proof.
  intros tgamma l b Ht Hb. pose proof (gamma_fn_pos tgamma l Ht) as Hg. assert (Hi : 0 < / b) by (apply Rinv_0_lt_compat; exact Hb).
  pose proof (orthonormal l _ (/ b) 2 2 (Ht l) Hi) as O2. pose proof (integral_scal (2 * wrong_part l) _ _ (orthonormal l _ (/ b) 2 0 (Ht l) Hi)) as O1.
  pose proof (integral_scal (wrong_part l * wrong_part l) _ _ (orthonormal l _ (/ b) 0 0 (Ht l) Hi)) as O0.
  pose proof (integral_plus _ _ _ _ (integral_plus _ _ _ _ O2 O1) O0) as K. unfold delta in K. cbn [Nat.eqb] in K.
  eapply integral_val; [|eapply integral_ext; [|exact K]]; [ring|]. intros k Hk. cbn beta. rewrite momentum_2 by assumption. rewrite Rpower_0. ring.
Qed.
Lemma momentum_first : forall tgamma l b n m, gamma_fn tgamma -> 0 < b -> (n <= 1)%nat -> (m <= 1)%nat ->
  integral (fun k => code_value tgamma false n l b 0 k * code_value tgamma false m l b 0 k) (delta n m).
Proof.
  intros tgamma l b n m Ht Hb Hn Hm. pose proof (gamma_fn_pos tgamma l Ht) as Hg. assert (Hi : 0 < / b) by (apply Rinv_0_lt_compat; exact Hb).
  pose proof (orthonormal l _ (/ b) n m (Ht l) Hi) as O.
  destruct n as [|[|n]]; [| |lia]; (destruct m as [|[|m]]; [| |lia]).
  - eapply integral_ext; [|exact O]. intros k Hk. cbn beta. rewrite momentum_0 by assumption. rewrite Rpower_0. ring.
  - apply (integral_val _ (-1 * delta 0 1)); [unfold delta; cbn; ring|]. eapply integral_ext; [|apply integral_scal, O]. intros k Hk. cbn beta. rewrite momentum_0, momentum_1 by assumption. rewrite Rpower_0. ring.
  - apply (integral_val _ (-1 * delta 1 0)); [unfold delta; cbn; ring|]. eapply integral_ext; [|apply integral_scal, O]. intros k Hk. cbn beta. rewrite momentum_0, momentum_1 by assumption. rewrite Rpower_0. ring.
  - eapply integral_ext; [|exact O]. intros k Hk. cbn beta. rewrite momentum_1 by assumption. rewrite Rpower_0. ring.
Qed.

(** * the integrands of relative_xform.cpp *)
Lemma mesh_split : forall n, uniform_mesh (S n) = map (mesh_point (S n)) (seq 0 n) ++ [1].
Proof. intros n. unfold uniform_mesh. rewrite seq_S, map_app. cbn [map]. rewrite Nat.add_0_l, mesh_point_last. reflexivity. Qed.
Lemma fix_last_app : forall a x, fix_last (a ++ [x]) = a ++ [if finite x then x else Fin 0].
Proof.
  induction a as [|y a IH]; intros x; [reflexivity|]. cbn [app]. rewrite <- IH. destruct (a ++ [x]) eqn:E; [destruct a; discriminate|]. reflexivity.
Qed.
Section Xform.
Variables (tgamma : R -> R) (L : nat) (ratio : R).
Hypotheses (Ht : gamma_fn tgamma) (Hr : 0 < ratio).
Let g := tgamma (INR L + 3 / 2).
Let Hg : 0 < g := gamma_fn_pos tgamma L Ht.
Definition sb1 : R := 1 / sqrt ratio.
Definition sb2 : R := sqrt ratio.
Lemma sb2_pos : 0 < sb2.
Proof. apply sqrt_lt_R0, Hr. Qed.
Lemma sb1_pos : 0 < sb1.
Proof. apply Rdiv_lt_0_compat; [lra|apply sb2_pos]. Qed.
Definition phi (i j : nat) (z : R) : R :=
  if Rlt_dec z 1 then osc g i L sb1 (z / (1 - z)) * osc g j L sb2 (z / (1 - z)) / ((1 - z) * (1 - z)) else 0.
Lemma phi_in : forall i j z, z < 1 -> phi i j z = osc g i L sb1 (z / (1 - z)) * osc g j L sb2 (z / (1 - z)) / ((1 - z) * (1 - z)).
Proof. intros i j z H. unfold phi. destruct (Rlt_dec z 1); [reflexivity|lra]. Qed.
Lemma osc_0 : forall n b, 0 < b -> osc g n L b 0 = 0.
Proof. intros n b Hb. unfold osc. replace (0 / b) with 0 by (field; lra). rewrite (pow_i (L + 1)) by lia. ring. Qed.
Lemma point_r : forall n b r, 0 < b -> 0 <= r -> point tgamma true (Z.of_nat L) b 0 n (Fin r) = Fin (osc g n L b r).
Proof.
  intros n b r Hb [H|H]; [rewrite point_pos by assumption; rewrite Rpower_0; f_equal; unfold g; ring|]. subst r. rewrite point_zero by (try assumption; pose proof (pos_INR L); lra).
  rewrite osc_0 by exact Hb. reflexivity.
Qed.
Definition hz (i j : nat) (z : R) : fl :=
  fmul (fmul (point tgamma true (Z.of_nat L) sb1 0 i (transformed true 1 z)) (point tgamma true (Z.of_nat L) sb2 0 j (transformed true 1 z))) (jacobian true 1 z).
Lemma hz_in : forall i j z, 0 <= z < 1 -> hz i j z = Fin (phi i j z).
Proof.
  intros i j z Hz. unfold hz. destruct (transformed_fin 1 z Rlt_0_1 ltac:(lra)) as (T & J & _). rewrite T, J.
  assert (P : 0 <= Tz 1 z). { unfold Tz. rewrite Rmult_1_r. apply Rmult_le_pos; [lra|left; apply Rinv_0_lt_compat; lra]. }
  rewrite (point_r i sb1 (Tz 1 z) sb1_pos P), (point_r j sb2 (Tz 1 z) sb2_pos P). cbn [fmul]. rewrite phi_in by lra. unfold Tz, Jz. rewrite Rmult_1_r. f_equal. field. lra.
Qed.
Lemma hz_1 : forall i j, finite (hz i j 1) = false.
Proof.
  intros i j. unfold hz. destruct (transformed_one true 1 Rlt_0_1) as (T & J). rewrite T, J. rewrite point_inf by (try apply sb1_pos; try assumption; pose proof (pos_INR L); lra). reflexivity.
Qed.
Lemma xform_integrand_ok : forall sd td steps i j, (0 < steps)%nat -> (Z.of_nat i < sd)%Z -> (Z.of_nat j < td)%Z ->
  xform_integrand tgamma sd td (Z.of_nat L) ratio steps i j = Ok (map (fun z => Fin (phi i j z)) (uniform_mesh (steps + 1))).
Proof.
  intros sd td steps i j Hs Hi Hj. unfold xform_integrand. fold sb1. fold sb2. rewrite !wave_functions_nth by lia. cbn [get bind]. unfold row. rewrite !map_map, !zip2_map.
  change (fun x => fmul (fmul (point tgamma true (Z.of_nat L) sb1 0 i (transformed true 1 x)) (point tgamma true (Z.of_nat L) sb2 0 j (transformed true 1 x))) (jacobian true 1 x)) with (hz i j).
  replace (steps + 1)%nat with (S steps) by lia. rewrite mesh_split, !map_app, !map_map. cbn [map].
  assert (P1 : phi i j 1 = 0) by (unfold phi; destruct (Rlt_dec 1 1); [lra|reflexivity]). rewrite P1.
  rewrite (map_ext_in (fun x => hz i j (mesh_point (S steps) x)) (fun x => Fin (phi i j (mesh_point (S steps) x)))).
  2:{ intros k Hk. apply in_seq in Hk. apply hz_in. apply mesh_point_lt1. lia. }
  destruct steps as [|s]; [lia|]. cbn [seq map app fix_endpoints finite].
  rewrite app_comm_cons, fix_last_app, hz_1. reflexivity.
Qed.
Lemma phi_inf : forall i j, lim1 (phi i j) 0.
Proof.
  intros i j.
  assert (K : liminf (fun r => (osc g i L sb1 r + 2 * (r ^ 1 * osc g i L sb1 r) + r ^ 2 * osc g i L sb1 r) * osc g j L sb2 r) 0).
  { apply liminf_mult0.
    - replace 0 with (0 + 2 * 0 + 0) by ring. apply liminf_plus; [apply liminf_plus|].
      + eapply liminf_ext; [|apply (osc_inf g i L sb1 0 sb1_pos Hg)]. intros x _. cbn. ring.
      + apply liminf_scal, osc_inf; [apply sb1_pos|exact Hg].
      + apply osc_inf; [apply sb1_pos|exact Hg].
    - eapply liminf_ext; [|apply (osc_inf g j L sb2 0 sb2_pos Hg)]. intros x _. cbn. ring. }
  intros e He. destruct (K e He) as (A & HA & Q). destruct (Tz_lim1 1 A Rlt_0_1 HA) as (d & Hd & Hd2 & T). exists d. split; [exact Hd|]. intros z Hz.
  pose proof (Q (Tz 1 z) (T z Hz)) as B. rewrite phi_in by lra. unfold Tz in B. rewrite Rmult_1_r in B.
  set (r := z / (1 - z)) in *.
  replace (osc g i L sb1 r * osc g j L sb2 r / ((1 - z) * (1 - z))) with ((osc g i L sb1 r + 2 * (r ^ 1 * osc g i L sb1 r) + r ^ 2 * osc g i L sb1 r) * osc g j L sb2 r); [exact B|].
  generalize (osc g i L sb1 r) (osc g j L sb2 r). intros p q. unfold r. cbn [pow]. field. lra.
Qed.
Lemma xform_integral : forall i j, exists v, integral01 (phi i j) v /\ integral (fun r => osc g i L 1 r * osc g j L ratio r) v.
Proof.
  intros i j. destruct (overlap_exists g i j L 1 ratio Rlt_0_1 Hr) as (v & V). exists v. split; [|exact V].
  assert (Q : sb2 / sb1 = ratio).
  { unfold sb1, sb2. pose proof sb2_pos as P. unfold sb2 in P. replace (sqrt ratio / (1 / sqrt ratio)) with (sqrt ratio * sqrt ratio) by (field; lra). apply sqrt_sqrt. lra. }
  rewrite <- Q in V. apply (overlap_ratio g i j L sb1 sb2 v sb1_pos sb2_pos Hg) in V.
  apply (mesh_integral _ 1 v Rlt_0_1) in V. destruct V as (F & D & F0 & F1). exists F. split; [|split; assumption]. intros z Hz.
  replace (phi i j z) with (osc g i L sb1 (Tz 1 z) * osc g j L sb2 (Tz 1 z) * Jz 1 z); [apply D; exact Hz|].
  rewrite phi_in by lra. unfold Tz, Jz. rewrite Rmult_1_r. field. lra.
Qed.
End Xform.
Lemma xform_mesh : forall tgamma L ratio sd td steps i j, gamma_fn tgamma -> 0 < ratio -> (0 < steps)%nat -> (Z.of_nat i < sd)%Z -> (Z.of_nat j < td)%Z ->
  exists f v, xform_integrand tgamma sd td (Z.of_nat L) ratio steps i j = Ok (map (fun z => Fin (f z)) (uniform_mesh (steps + 1)))
    /\ (forall z, 0 <= z < 1 -> f z = osc (tgamma (INR L + 3 / 2)) i L (1 / sqrt ratio) (z / (1 - z)) * osc (tgamma (INR L + 3 / 2)) j L (sqrt ratio) (z / (1 - z)) / ((1 - z) * (1 - z)))
    /\ f 1 = 0 /\ lim1 f 0
    /\ integral01 f v /\ integral (fun r => osc (tgamma (INR L + 3 / 2)) i L 1 r * osc (tgamma (INR L + 3 / 2)) j L ratio r) v.
Proof.
  intros tgamma L ratio sd td steps i j Ht Hr Hs Hi Hj. destruct (xform_integral tgamma L ratio Ht Hr i j) as (v & V1 & V2).
  exists (phi tgamma L ratio i j), v. split; [apply xform_integrand_ok; assumption|]. split; [intros z Hz; apply phi_in; lra|].
  split; [unfold phi; destruct (Rlt_dec 1 1); [lra|reflexivity]|]. split; [apply phi_inf; assumption|]. split; assumption.
Qed.
