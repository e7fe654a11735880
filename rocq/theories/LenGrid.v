(** The arrays of the chiral operators: what is integrated. *)
From Coq Require Import List ZArith Reals Bool Lra Lia.
From Verif Require Import Base RMat OscModel JpvSpec TrfSpec RmeSpec LenModel WfModel WfSpec WfLag WfInt WfProof WfOsc WfEl WfSqr WfMesh WfGrid WfFinal LenSpec LenInt LenMesh.
Import ListNotations.
Open Scope R_scope.

Lemma points_mesh : forall n, (1 < n)%nat -> uniform_mesh n = points n.
Proof.
  intros [|n] Hn; [lia|]. unfold uniform_mesh, points. apply map_ext_in. intros i Hi. apply in_seq in Hi. rewrite mesh_point_val by lia. rewrite S_INR. f_equal. ring.
Qed.
Lemma fix_mesh : forall n (H : R -> fl), (1 < n)%nat -> finite (H 1) = false ->
  fix_endpoints (map H (uniform_mesh n)) = Ok (map (fun z => if Req_EM_T z 1 then Fin 0 else if Req_EM_T z 0 then if finite (H 0) then H 0 else Fin 0 else H z) (uniform_mesh n)).
Proof.
  intros n H Hn H1. destruct n as [|[|m]]; try lia. rewrite mesh_split, !map_app. cbn [map]. destruct (Req_EM_T 1 1) as [_|]; [|contradiction].
  cbn [seq map]. assert (Z0 : mesh_point (S (S m)) 0 = 0) by (rewrite mesh_point_val by lia; unfold Rdiv; cbn [INR]; ring). rewrite Z0.
  destruct (Req_EM_T 0 1) as [E|_]; [lra|]. destruct (Req_EM_T 0 0) as [_|]; [|contradiction]. cbn [app fix_endpoints]. rewrite app_comm_cons, fix_last_app, H1. cbn [app]. do 3 f_equal.
  rewrite !map_map. apply map_ext_in. intros i Hi. apply in_seq in Hi. destruct (mesh_point_lt1 (S m) i ltac:(lia)) as [A B]. pose proof (mesh_point_pos (S m) i ltac:(lia)) as P.
  destruct (Req_EM_T _ 1); [lra|]. destruct (Req_EM_T _ 0); [lra|reflexivity].
Qed.
Section Integrate.
Variable quad : list R -> list fl -> num.
Hypothesis Hq : quad_ok quad.
Lemma mesh_in01 : forall n z, In z (uniform_mesh n) -> (1 < n)%nat -> 0 <= z <= 1.
Proof.
  intros n z Hz Hn. rewrite points_mesh in Hz by exact Hn. unfold points in Hz. apply in_map_iff in Hz. destruct Hz as (i & <- & Hi). apply in_seq in Hi.
  assert (1 < INR n) by (apply (lt_INR 1); lia). assert (INR i + 1 <= INR n) by (rewrite <- S_INR; apply le_INR; lia). pose proof (pos_INR i). split.
  - apply Rmult_le_pos; [lra|left; apply Rinv_0_lt_compat; lra].
  - apply (Rmult_le_reg_r (INR n - 1)); [lra|]. unfold Rdiv. rewrite Rmult_assoc, Rinv_l by lra. lra.
Qed.
Lemma integrate_samples : forall n H c h, (1 < n)%nat -> (forall z, 0 < z < 1 -> H z = Fin (on_mesh c h z)) -> (H 0 = Fin 0 \/ finite (H 0) = false) -> finite (H 1) = false ->
  integrate quad n (map H (z_grid n)) = Ok (Q quad n c h).
Proof.
  intros n H c h Hn Hi H0 H1. unfold integrate, z_grid. rewrite fix_mesh by assumption. cbn [bind].
  rewrite (map_ext_in _ (fun z => Fin (on_mesh c h z))).
  - unfold Q, samples. rewrite points_mesh by exact Hn. destruct (Hq (points n) (map (on_mesh c h) (points n))) as (x & X). rewrite map_map in X. rewrite X. reflexivity.
  - intros z Hz. pose proof (mesh_in01 n z Hz Hn). destruct (Req_EM_T z 1) as [->|N1]; [rewrite on_mesh_1; reflexivity|]. destruct (Req_EM_T z 0) as [->|N0].
    + rewrite on_mesh_0. destruct H0 as [->|H0]; [reflexivity|rewrite H0; reflexivity].
    + apply Hi. lra.
Qed.
Lemma integrate_some : forall n H, (1 < n)%nat -> (forall z, 0 <= z < 1 -> finite (H z) = true) -> finite (H 1) = false -> exists x, integrate quad n (map H (z_grid n)) = Ok x.
Proof.
  intros n H Hn Hi H1. unfold integrate, z_grid. rewrite fix_mesh by assumption. cbn [bind].
  set (v := fun z => match H z with Fin x => if Req_EM_T z 1 then 0 else x | _ => 0 end). rewrite (map_ext_in _ (fun z => Fin (v z))).
  - destruct (Hq (uniform_mesh n) (map v (uniform_mesh n))) as (x & X). rewrite map_map in X. rewrite X. exists x. reflexivity.
  - intros z Hz. pose proof (mesh_in01 n z Hz Hn). unfold v. destruct (Req_EM_T z 1) as [->|N1]; [destruct (H 1); reflexivity|]. pose proof (Hi z ltac:(lra)) as F.
    destruct (Req_EM_T z 0) as [->|N0]; [rewrite F; destruct (H 0)|destruct (H z)]; try discriminate F; reflexivity.
Qed.
End Integrate.

(** * values of the arrays *)
Section Values.
Variables (tgamma : R -> R) (b : R).
Hypotheses (Ht : gamma_fn tgamma) (Hb : 0 < b).
Lemma brel_pos : 0 < b_rel b.
Proof. unfold b_rel. apply Rmult_lt_0_compat; [exact Hb|apply sqrt_lt_R0; lra]. Qed.
Definition pt (shift : R) (l : Z) (n : nat) (z : R) : fl := point tgamma true l (b_rel b) shift n (transformed true (b_rel b) z).
Lemma osc_grid_ok : forall Nmax npts shift l n, (0 <= l <= Nmax)%Z -> (Z.of_nat n <= (Nmax - l) / 2)%Z ->
  osc_grid tgamma Nmax npts b shift l n = Ok (map (pt shift l n) (z_grid npts)).
Proof.
  intros Nmax npts shift l n Hl Hn. unfold osc_grid. rewrite (proj2 (Z.ltb_ge l 0)), (proj2 (Z.ltb_ge Nmax l)) by lia. cbn [orb].
  rewrite wave_functions_nth by (rewrite Z.quot_div_nonneg by lia; exact Hn). cbn [get]. unfold row, r_grid. rewrite map_map. reflexivity.
Qed.
Lemma pt_in : forall shift l n z, (0 <= l)%Z -> 0 < z < 1 -> pt shift l n z = Fin (Rpower (Tz (b_rel b) z) shift * psi tgamma b l n (Tz (b_rel b) z)).
Proof.
  intros shift l n z Hl Hz. unfold pt. rewrite (proj1 (transformed_fin (b_rel b) z brel_pos ltac:(lra))). rewrite <- (Z2Nat.id l) at 1 by exact Hl.
  rewrite point_pos; [reflexivity|apply gamma_fn_pos, Ht|apply brel_pos|apply Tz_pos; [apply brel_pos|exact Hz]].
Qed.
Lemma tz0 : forall c, Tz c 0 = 0.
Proof. intros c. unfold Tz. field. Qed.
Lemma pt_0 : forall shift l n, (0 <= l)%Z -> 0 < IZR l + 1 + shift -> pt shift l n 0 = Fin 0.
Proof.
  intros shift l n Hl Hs. unfold pt. rewrite (proj1 (transformed_fin (b_rel b) 0 brel_pos ltac:(lra))), tz0. replace (point tgamma true l) with (point tgamma true (Z.of_nat (Z.to_nat l))) by (rewrite Z2Nat.id by exact Hl; reflexivity).
  apply point_zero; [apply gamma_fn_pos, Ht|apply brel_pos|]. rewrite INR_IZR_INZ, Z2Nat.id by exact Hl. exact Hs.
Qed.
Lemma pt_0_fin : forall shift l n, (0 <= l)%Z -> 0 <= IZR l + 1 + shift -> exists v, pt shift l n 0 = Fin v.
Proof.
  intros shift l n Hl [Hs|Hs]; [exists 0; apply pt_0; assumption|].
  unfold pt. rewrite (proj1 (transformed_fin (b_rel b) 0 brel_pos ltac:(lra))), tz0. replace (point tgamma true l) with (point tgamma true (Z.of_nat (Z.to_nat l))) by (rewrite Z2Nat.id by exact Hl; reflexivity).
  eexists. apply (point_closed tgamma (Z.to_nat l) (b_rel b) shift (gamma_fn_pos _ _ Ht) brel_pos (Fin 0) _ (Rpower (b_rel b) shift) (unitless_fin (b_rel b) brel_pos 0)).
  unfold rec0. rewrite IZR_l. rewrite (rec0_norm tgamma (Z.to_nat l) (b_rel b) shift (gamma_fn_pos _ _ Ht) brel_pos). cbn [fneg]. rewrite fdiv_pos by lra. cbn [fexp fmul].
  assert (E : (INR (Z.to_nat l) + 1 + shift) / 2 = 0) by (rewrite INR_IZR_INZ, Z2Nat.id by exact Hl; lra).
  unfold fpow. rewrite (sgn_zero _ E). cbn [fmul]. f_equal. assert (E2 : - (0 / b_rel b * (0 / b_rel b)) / 2 = 0) by (pose proof brel_pos; field; lra). rewrite E2, exp_0. ring.
Qed.
(** exp, tensor factor, regulators, jacobian *)
Definition ex (z : R) : fl := fexp (fmul (Fin (- pion_mass_fm)) (transformed true (b_rel b) z)).
Definition wf (z : R) : fl := let r := transformed true (b_rel b) z in
  fadd (Fin 1) (fdiv (fmul (Fin 3) (fadd (Fin 1) (fmul (Fin pion_mass_fm) r))) (fmul (fmul (fmul (Fin pion_mass_fm) (Fin pion_mass_fm)) r) r)).
Definition loc (range z : R) : fl := if Req_EM_T range 0 then Fin 1
  else let r := transformed true (b_rel b) z in fpow (fsub (Fin 1) (fexp (fdiv (fmul (fneg r) r) (Fin (range * range))))) 6.
Definition nonloc (range z : R) : fl := let r := transformed true (b_rel b) z in fdiv (fexp (fdiv (fmul (fneg r) r) (Fin (range * range)))) (fpow (Fin (PI * range * range)) (3 / 2)).
Lemma exp_grid_map : forall n, exp_grid n b = map ex (z_grid n).
Proof. intros n. unfold exp_grid, r_grid. rewrite map_map. reflexivity. Qed.
Lemma w_grid_map : forall n, w_grid n b = map wf (z_grid n).
Proof. intros n. unfold w_grid, r_grid. rewrite map_map. reflexivity. Qed.
Lemma local_grid_map : forall n range, local_grid n b range = map (loc range) (z_grid n).
Proof. intros n range. unfold local_grid, loc, r_grid. destruct (Req_EM_T range 0); [reflexivity|]. rewrite map_map. reflexivity. Qed.
Lemma nonlocal_grid_map : forall n range, range <> 0 -> nonlocal_grid n b range = map (nonloc range) (z_grid n).
Proof. intros n range Hr. unfold nonlocal_grid, r_grid. destruct (Req_EM_T range 0); [contradiction|]. rewrite map_map. reflexivity. Qed.
Lemma mass_pos : 0 < pion_mass_fm.
Proof. unfold pion_mass_fm, hbarc. lra. Qed.
Lemma ex_in : forall z, z < 1 -> ex z = Fin (exp (- (pion_mass_fm * Tz (b_rel b) z))).
Proof. intros z Hz. unfold ex. rewrite (proj1 (transformed_fin (b_rel b) z brel_pos Hz)). cbn [fmul fexp]. f_equal. f_equal. ring. Qed.
Lemma loc_in : forall range z, 0 < z < 1 -> loc range z = Fin (regulator range (Tz (b_rel b) z)).
Proof.
  intros range z Hz. unfold loc, regulator. destruct (Req_EM_T range 0) as [|Hn]; [reflexivity|]. rewrite (proj1 (transformed_fin (b_rel b) z brel_pos ltac:(lra))).
  assert (Q : 0 < range * range) by nra. pose proof (Tz_pos (b_rel b) z brel_pos Hz) as P. set (r := Tz (b_rel b) z) in *. cbn [fneg fmul]. rewrite fdiv_pos by exact Q. cbn [fexp fsub fneg fadd].
  replace (- r * r) with (- (r * r)) by ring. rewrite fpow_pos.
  - f_equal. change 6 with (IZR (Z.of_nat 6)). rewrite <- INR_IZR_INZ. rewrite Rpower_pow; [reflexivity|].
    assert (exp (- (r * r) / (range * range)) < exp 0); [|rewrite exp_0 in *; lra]. apply exp_increasing. assert (0 < r * r / (range * range)) by (apply Rdiv_lt_0_compat; [nra|exact Q]). unfold Rdiv in *. lra.
  - assert (exp (- (r * r) / (range * range)) < exp 0); [|rewrite exp_0 in *; lra]. apply exp_increasing. assert (0 < r * r / (range * range)) by (apply Rdiv_lt_0_compat; [nra|exact Q]). unfold Rdiv in *. lra.
Qed.
Lemma loc_0 : forall range, loc range 0 = Fin (if Req_EM_T range 0 then 1 else 0).
Proof.
  intros range. unfold loc. destruct (Req_EM_T range 0) as [|Hn]; [reflexivity|]. rewrite (proj1 (transformed_fin (b_rel b) 0 brel_pos ltac:(lra))), tz0.
  assert (Q : 0 < range * range) by nra. cbn [fneg fmul]. rewrite fdiv_pos by exact Q. cbn [fexp fsub fneg fadd].
  assert (E : 1 + - exp (- 0 * 0 / (range * range)) = 0) by (replace (- 0 * 0 / (range * range)) with 0 by (field; exact Hn); rewrite exp_0; ring).
  unfold fpow. rewrite sgn_pos by lra. rewrite (sgn_zero _ E). reflexivity.
Qed.
Lemma wf_in : forall z, 0 < z < 1 -> wf z = Fin (1 + 3 * (1 + pion_mass_fm * Tz (b_rel b) z) / (pion_mass_fm * Tz (b_rel b) z) ^ 2).
Proof.
  intros z Hz. unfold wf. rewrite (proj1 (transformed_fin (b_rel b) z brel_pos ltac:(lra))). pose proof (Tz_pos (b_rel b) z brel_pos Hz) as P. pose proof mass_pos as HM.
  set (r := Tz (b_rel b) z) in *. set (M := pion_mass_fm) in *. cbn [fmul fadd]. assert (0 < M * M) by nra. assert (0 < M * M * r) by nra. rewrite fdiv_pos by nra. cbn [fadd]. f_equal. field. split; lra.
Qed.
Lemma wf_0 : wf 0 = Inf true.
Proof.
  unfold wf. rewrite (proj1 (transformed_fin (b_rel b) 0 brel_pos ltac:(lra))), tz0. cbn [fmul fadd fdiv]. rewrite (sgn_zero (pion_mass_fm * pion_mass_fm * 0 * 0)) by ring. rewrite sgn_pos by lra. reflexivity.
Qed.
Lemma nonloc_in : forall range z, range <> 0 -> z < 1 -> nonloc range z = Fin (smeared range (Tz (b_rel b) z)).
Proof.
  intros range z Hn Hz. unfold nonloc, smeared. rewrite (proj1 (transformed_fin (b_rel b) z brel_pos Hz)). assert (Q : 0 < range * range) by nra. set (r := Tz (b_rel b) z) in *.
  cbn [fneg fmul]. rewrite fdiv_pos by exact Q. cbn [fexp]. assert (P : 0 < PI * range * range) by (rewrite Rmult_assoc; apply Rmult_lt_0_compat; [apply PI_RGT_0|exact Q]).
  rewrite fpow_pos by exact P. assert (E : Rpower (PI * range * range) (3 / 2) = sqrt (PI * (range * range)) ^ 3).
  { rewrite <- Rpower_pow by (apply sqrt_lt_R0; lra). rewrite <- Rmult_assoc. rewrite <- (Rpower_sqrt (PI * range * range)) by exact P. rewrite Rpower_mult. f_equal. cbn [INR]. lra. }
  rewrite E. rewrite fdiv_pos by (apply pow_lt, sqrt_lt_R0; lra). f_equal. replace (- r * r) with (- (r * r)) by ring. reflexivity.
Qed.
Lemma fmul_inf : forall a p, finite (fmul a (Inf p)) = false.
Proof. intros [x|q|] p; cbn [fmul finite]; try reflexivity. unfold inf_times. destruct (sgn x); reflexivity. Qed.
Lemma jac_1 : forall a, finite (fmul a (jacobian true (b_rel b) 1)) = false.
Proof. intros a. rewrite (proj2 (transformed_one true (b_rel b) brel_pos)). apply fmul_inf. Qed.
Lemma jac_in : forall z, z < 1 -> jacobian true (b_rel b) z = Fin (Jz (b_rel b) z).
Proof. intros z Hz. apply (transformed_fin (b_rel b) z brel_pos Hz). Qed.

(** * integrands *)
Variable quad : list R -> list fl -> num.
Hypothesis Hq : quad_ok quad.
Definition shifted (k : nat) : R := - (INR k / 2).
Lemma shifted_pow : forall k r, 0 < r -> Rpower r (shifted k) * Rpower r (shifted k) = / r ^ k.
Proof.
  intros k r Hr. rewrite <- Rpower_plus. unfold shifted. replace (- (INR k / 2) + - (INR k / 2)) with (- INR k) by field. rewrite Rpower_Ropp, Rpower_pow by exact Hr. reflexivity.
Qed.
Lemma brel_eq : b_rel b = b * sqrt 2.
Proof. reflexivity. Qed.
Lemma times_map : forall (f g : R -> fl) l, times (map f l) (map g l) = map (fun z => fmul (f z) (g z)) l.
Proof. intros. apply zip2_map. Qed.
Definition yukawa_fl (range : R) (k : nat) (l l' : Z) (n n' : nat) (z : R) : fl :=
  fmul (fmul (fmul (fmul (pt (shifted k) l n z) (ex z)) (pt (shifted k) l' n' z)) (loc range z)) (jacobian true (b_rel b) z).
Lemma yukawa_fl_in : forall range k l l' n n' z, (0 <= l)%Z -> (0 <= l')%Z -> 0 < z < 1 ->
  yukawa_fl range k l l' n n' z = Fin (on_mesh (b * sqrt 2) (yukawa k pion_mass_fm range (psi tgamma b l n) (psi tgamma b l' n')) z).
Proof.
  intros range k l l' n n' z Hl Hl' Hz. unfold yukawa_fl. rewrite !pt_in by assumption. rewrite ex_in by lra. rewrite loc_in by exact Hz. rewrite jac_in by lra. cbn [fmul].
  rewrite on_mesh_in by exact Hz. rewrite <- brel_eq. f_equal. pose proof (Tz_pos (b_rel b) z brel_pos Hz) as P. set (r := Tz (b_rel b) z) in *. unfold yukawa.
  transitivity ((Rpower r (shifted k) * Rpower r (shifted k)) * (psi tgamma b l n r * exp (- (pion_mass_fm * r)) * psi tgamma b l' n' r * regulator range r) * Jz (b_rel b) z); [ring|].
  rewrite shifted_pow by exact P. unfold Rdiv. ring.
Qed.
Lemma shifted_nonneg : forall k l, (k <= 2)%nat -> (0 <= l)%Z -> 0 <= IZR l + 1 + shifted k.
Proof. intros k l Hk Hl. unfold shifted. apply le_INR in Hk. change (INR 2) with 2 in Hk. apply IZR_le in Hl. lra. Qed.
Lemma yukawa_fl_0 : forall range k l l' n n', (0 <= l)%Z -> (0 <= l')%Z -> (k <= 2)%nat -> range <> 0 \/ (k < 2)%nat \/ (0 < l + l')%Z -> yukawa_fl range k l l' n n' 0 = Fin 0.
Proof.
  intros range k l l' n n' Hl Hl' Hk Hc. unfold yukawa_fl. rewrite ex_in, jac_in by lra. rewrite loc_0.
  destruct (pt_0_fin (shifted k) l n Hl (shifted_nonneg k l Hk Hl)) as (v & V). destruct (pt_0_fin (shifted k) l' n' Hl' (shifted_nonneg k l' Hk Hl')) as (w & W).
  assert (K : (range <> 0) \/ pt (shifted k) l n 0 = Fin 0 \/ pt (shifted k) l' n' 0 = Fin 0).
  { destruct Hc as [H|[H|H]]; [left; exact H| |].
    - right. left. apply pt_0; [exact Hl|]. unfold shifted. assert (H1 : (k <= 1)%nat) by lia. apply le_INR in H1. change (INR 1) with 1 in H1. apply IZR_le in Hl. lra.
    - right. apply le_INR in Hk. change (INR 2) with 2 in Hk. destruct (Z.eq_dec l 0) as [El|Nl]; [right|left]; apply pt_0; try lia; unfold shifted; assert (H1 : (1 <= l)%Z \/ (1 <= l')%Z) by lia.
      + destruct H1 as [H1|H1]; [lia|]. apply IZR_le in H1. lra.
      + assert (H2 : (1 <= l)%Z) by lia. apply IZR_le in H2. lra. }
  destruct K as [K|[K|K]].
  - rewrite V, W. cbn [fmul]. destruct (Req_EM_T range 0); [contradiction|]. f_equal. ring.
  - rewrite K, W. cbn [fmul]. f_equal. ring.
  - rewrite K, V. cbn [fmul]. f_equal. ring.
Qed.
Lemma yukawa_list : forall npts range k l l' n n',
  times (times (times (times (map (pt (shifted k) l n) (z_grid npts)) (exp_grid npts b)) (map (pt (shifted k) l' n') (z_grid npts))) (local_grid npts b range)) (jacobian_grid npts b)
  = map (yukawa_fl range k l l' n n') (z_grid npts).
Proof. intros. rewrite exp_grid_map, local_grid_map. unfold jacobian_grid. rewrite !times_map. reflexivity. Qed.
Lemma yukawa_integrate : forall npts range k l l' n n', (1 < npts)%nat -> (0 <= l)%Z -> (0 <= l')%Z -> (k <= 2)%nat -> range <> 0 \/ (k < 2)%nat \/ (0 < l + l')%Z ->
  integrate quad npts (map (yukawa_fl range k l l' n n') (z_grid npts)) = Ok (Q quad npts (b * sqrt 2) (yukawa k pion_mass_fm range (psi tgamma b l n) (psi tgamma b l' n'))).
Proof.
  intros. apply integrate_samples; [assumption|assumption| |left; apply yukawa_fl_0; assumption|apply jac_1]. intros z Hz. apply yukawa_fl_in; assumption.
Qed.
Lemma yukawa_some : forall npts range k l l' n n', (1 < npts)%nat -> (0 <= l)%Z -> (0 <= l')%Z -> (k <= 2)%nat ->
  exists x, integrate quad npts (map (yukawa_fl range k l l' n n') (z_grid npts)) = Ok x.
Proof.
  intros npts range k l l' n n' Hn Hl Hl' Hk. apply integrate_some; [exact Hq|exact Hn| |apply jac_1]. intros z [[Hz|Hz] Hz1]; [rewrite yukawa_fl_in by (try assumption; lra); reflexivity|]. subst z.
  unfold yukawa_fl. rewrite ex_in, jac_in by lra. rewrite loc_0. destruct (pt_0_fin (shifted k) l n Hl (shifted_nonneg k l Hk Hl)) as (v & V). destruct (pt_0_fin (shifted k) l' n' Hl' (shifted_nonneg k l' Hk Hl')) as (w & W).
  rewrite V, W. reflexivity.
Qed.
Definition tensor_fl (range : R) (l l' : Z) (n n' : nat) (z : R) : fl :=
  fmul (fmul (fmul (fmul (fmul (pt (shifted 1) l n z) (ex z)) (wf z)) (pt (shifted 1) l' n' z)) (loc range z)) (jacobian true (b_rel b) z).
Lemma tensor_list : forall npts range l l' n n',
  times (times (times (times (times (map (pt (shifted 1) l n) (z_grid npts)) (exp_grid npts b)) (w_grid npts b)) (map (pt (shifted 1) l' n') (z_grid npts))) (local_grid npts b range)) (jacobian_grid npts b)
  = map (tensor_fl range l l' n n') (z_grid npts).
Proof. intros. rewrite exp_grid_map, local_grid_map, w_grid_map. unfold jacobian_grid. rewrite !times_map. reflexivity. Qed.
Lemma tensor_integrate : forall npts range l l' n n', (1 < npts)%nat -> (0 <= l)%Z -> (0 <= l')%Z ->
  integrate quad npts (map (tensor_fl range l l' n n') (z_grid npts)) = Ok (Q quad npts (b * sqrt 2) (tensor_yukawa pion_mass_fm range (psi tgamma b l n) (psi tgamma b l' n'))).
Proof.
  intros npts range l l' n n' Hn Hl Hl'. apply integrate_samples; [assumption|assumption| |right|apply jac_1].
  - intros z Hz. unfold tensor_fl. rewrite !pt_in by assumption. rewrite ex_in by lra. rewrite wf_in, loc_in by exact Hz. rewrite jac_in by lra. cbn [fmul].
    rewrite on_mesh_in by exact Hz. rewrite <- brel_eq. f_equal. pose proof (Tz_pos (b_rel b) z brel_pos Hz) as P. set (r := Tz (b_rel b) z) in *. unfold tensor_yukawa.
    set (w := 1 + 3 * (1 + pion_mass_fm * r) / (pion_mass_fm * r) ^ 2).
    transitivity ((Rpower r (shifted 1) * Rpower r (shifted 1)) * (psi tgamma b l n r * exp (- (pion_mass_fm * r)) * w * psi tgamma b l' n' r * regulator range r) * Jz (b_rel b) z); [ring|].
    rewrite shifted_pow by exact P. rewrite pow_1. unfold Rdiv. ring.
  - unfold tensor_fl. rewrite wf_0, ex_in by lra. rewrite pt_0; [|exact Hl|unfold shifted; cbn [INR]; apply IZR_le in Hl; lra].
    cbn [fmul]. unfold inf_times. rewrite sgn_zero by ring. reflexivity.
Qed.
Definition contact_fl (range : R) (l : Z) (n : nat) (z : R) : fl := fmul (fmul (pt 0 l n z) (nonloc range z)) (jacobian true (b_rel b) z).
Lemma contact_list : forall npts range l n, range <> 0 ->
  times (times (map (pt 0 l n) (z_grid npts)) (nonlocal_grid npts b range)) (jacobian_grid npts b) = map (contact_fl range l n) (z_grid npts).
Proof. intros. rewrite nonlocal_grid_map by assumption. unfold jacobian_grid. rewrite !times_map. reflexivity. Qed.
Lemma contact_integrate : forall npts range l n, range <> 0 -> (1 < npts)%nat -> (0 <= l)%Z ->
  integrate quad npts (map (contact_fl range l n) (z_grid npts)) = Ok (Q quad npts (b * sqrt 2) (with_contact range (psi tgamma b l n))).
Proof.
  intros npts range l n Hr Hn Hl. apply integrate_samples; [assumption|assumption| |left|apply jac_1].
  - intros z Hz. unfold contact_fl. rewrite pt_in by assumption. rewrite nonloc_in, jac_in by (try assumption; lra). cbn [fmul].
    rewrite on_mesh_in by exact Hz. rewrite <- brel_eq. f_equal. rewrite Rpower_0. unfold with_contact. ring.
  - unfold contact_fl. rewrite pt_0; [|exact Hl|apply IZR_le in Hl; lra]. rewrite nonloc_in, jac_in by (try assumption; lra). cbn [fmul]. f_equal. ring.
Qed.
End Values.
