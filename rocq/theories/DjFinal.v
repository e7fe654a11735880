(** C159, C160: the operator of the wrapper, relative-gen, and relative-gen followed by moshinsky. *)
From Coq Require Import String List ZArith Reals Bool Lia Lra.
From Verif Require Import Base BaseLemmas RMat OscModel OscSpec OscFinal BlockModel BlockProof MixModel MixProof MoshModel JpvModel JpvSpec IsoModel IsoSpec IsoFinal TrfModel TrfSpec TrfProof TrfFinal RmeModel RmeSpec RmeProof RmeFinal RelxModel RelxSpec RgModel MosModel MosSpec MosFile RgnModel RgnSpec RgnInput RgnProof RgnFile RgnJpv RgnChain DjData DjModel DjSpec DjProof.
Import ListNotations.
Open Scope Z_scope.
Open Scope outcome_scope.

(** no change of spin: states of the same parity and isospin which the exclusion principle allows have the same spin *)
Theorem same_spin : forall Nmax sp i k x y, rme_space Nmax sp -> nth_error sp i = Some x -> nth_error sp k = Some y -> jt_rule 0 0 0 (r_J x) (r_T x) (r_g x) (r_J y) (r_T y) (r_g y) -> r_S x = r_S y.
Proof.
  intros Nmax sp i k x y [Hall _] Hx Hy (HJ & HT & Hg). destruct (Hall x (nth_error_In _ _ Hx)) as (_ & S1 & T1 & _ & O1 & G1 & _). destruct (Hall y (nth_error_In _ _ Hy)) as (_ & S2 & T2 & _ & O2 & G2 & _).
  unfold couples in HT. assert (r_T x = r_T y) by lia. rewrite G1, G2 in Hg. apply even_parity in Hg.
  apply Z.odd_spec in O1, O2. apply Z.even_spec in Hg. destruct O1 as (a & O1), O2 as (b & O2), Hg as (c & Hg). lia.
Qed.
Section Operator.
Variable single : R -> R.
Hypothesis single_0 : single 0%R = 0%R.
Variable Nmax_of : rsub -> Z.
(** the label Nmax of the subspaces *)
Definition labels_Nmax (sp : rspace) : Prop := forall x, In x sp -> r_L x <= Nmax_of x /\ Z.of_nat (r_dim x) = (Nmax_of x - r_L x) / 2 + 1.
Lemma zrange_nat : forall n, zrange 0 (Z.of_nat n - 1) = map Z.of_nat (seq 0 n).
Proof. intros n. unfold zrange. replace (Z.to_nat (Z.of_nat n - 1 - 0 + 1)) with n by lia. apply map_ext. intros a. lia. Qed.
Lemma inner_fill : forall (g : nat -> R) (f : Z -> outcome R) j d (m : mat num), rows m = d -> (j < cols m)%nat -> (forall i, (i < d)%nat -> f (Z.of_nat i) = Ok (g i)) ->
  exists m', for_each (map Z.of_nat (seq 0 d)) (fun n m => v <- f n ;; mat_put m (Z.to_nat n) j (Num v)) m = Ok m' /\ rows m' = rows m /\ cols m' = cols m
  /\ forall u v, at_ m' u v = if Nat.eqb v j && Nat.ltb u d then Num (g u) else at_ m u v.
Proof.
  intros g f j d m Hr Hj Hf.
  assert (G : forall l (m : mat num), rows m = d -> (j < cols m)%nat -> (forall i, In i l -> (i < d)%nat) -> NoDup l -> exists m', for_each (map Z.of_nat l) (fun n m => v <- f n ;; mat_put m (Z.to_nat n) j (Num v)) m = Ok m' /\ rows m' = rows m /\ cols m' = cols m
    /\ forall u v, at_ m' u v = if Nat.eqb v j && existsb (Nat.eqb u) l then Num (g u) else at_ m u v).
  { induction l as [|i l IH]; intros m0 R0 C0 Hl Nd; cbn [map for_each].
    - exists m0. repeat split. intros u v. cbn. rewrite andb_false_r. reflexivity.
    - rewrite Hf by (apply Hl; left; reflexivity). cbn [bind]. rewrite Nat2Z.id. unfold mat_put. pose proof (Hl i (or_introl eq_refl)) as Hi. rewrite R0. rewrite (proj2 (Nat.ltb_lt _ _) Hi), (proj2 (Nat.ltb_lt _ _) C0). cbn [andb bind].
      inversion Nd; subst. destruct (IH (mset m0 i j (Num (g i)))) as (m' & E & R1 & C1 & A); try assumption; [intros; apply Hl; right; assumption|]. exists m'. split; [exact E|]. cbn [mset rows cols] in R1, C1. repeat split; [congruence|congruence|].
      intros u v. rewrite A. cbn [mset at_ existsb]. rewrite (Nat.eqb_sym v j), (Nat.eqb_sym u i). destruct (Nat.eqb_spec j v) as [->|]; destruct (Nat.eqb_spec i u) as [->|]; cbn [andb Datatypes.orb]; try reflexivity; rewrite ?Nat.eqb_refl; cbn [andb]; try destruct (existsb _ l); try reflexivity. }
  destruct (G (seq 0 d) m Hr Hj) as (m' & E & R1 & C1 & A); [intros i H; apply in_seq in H; lia|apply seq_NoDup|]. exists m'. repeat split; try assumption. intros u v. rewrite A. replace (existsb (Nat.eqb u) (seq 0 d)) with (Nat.ltb u d); [reflexivity|].
  apply eq_true_iff_eq. rewrite Nat.ltb_lt, existsb_exists. split; [intros H; exists u; split; [apply in_seq; lia|apply Nat.eqb_refl]|]. intros (x & H & Hx). apply Nat.eqb_eq in Hx. subst x. apply in_seq in H. lia.
Qed.
Lemma outer_fill : forall (g : nat -> nat -> R) (f : Z -> Z -> outcome R) d d' (m : mat num), rows m = d -> cols m = d' -> (forall i j, (i < d)%nat -> (j < d')%nat -> f (Z.of_nat i) (Z.of_nat j) = Ok (g i j)) ->
  exists m', for_each (map Z.of_nat (seq 0 d')) (fun j m => for_each (map Z.of_nat (seq 0 d)) (fun i m => v <- f i j ;; mat_put m (Z.to_nat i) (Z.to_nat j) (Num v)) m) m = Ok m' /\ rows m' = d /\ cols m' = d'
  /\ forall u v, (u < d)%nat -> (v < d')%nat -> at_ m' u v = Num (g u v).
Proof.
  intros g f d d' m Hr Hc Hf.
  assert (G : forall l (m : mat num), rows m = d -> cols m = d' -> (forall j, In j l -> (j < d')%nat) -> exists m', for_each (map Z.of_nat l) (fun j m => for_each (map Z.of_nat (seq 0 d)) (fun i m => v <- f i j ;; mat_put m (Z.to_nat i) (Z.to_nat j) (Num v)) m) m = Ok m'
    /\ rows m' = d /\ cols m' = d' /\ forall u v, (u < d)%nat -> at_ m' u v = if existsb (Nat.eqb v) l then Num (g u v) else at_ m u v).
  { induction l as [|j l IH]; intros m0 R0 C0 Hl; cbn [map for_each].
    - exists m0. auto.
    - pose proof (Hl j (or_introl eq_refl)) as Hj. destruct (inner_fill (fun i => g i j) (fun i => f i (Z.of_nat j)) j d m0 R0) as (m1 & E1 & R1 & C1 & A1); [lia|intros i Hi; apply Hf; assumption|].
      rewrite Nat2Z.id. rewrite E1. cbn [bind]. destruct (IH m1) as (m' & E & R2 & C2 & A2); [congruence|congruence|intros; apply Hl; right; assumption|]. exists m'. repeat split; try assumption.
      intros u v Hu. rewrite A2 by exact Hu. rewrite A1. cbn [existsb]. rewrite (proj2 (Nat.ltb_lt _ _) Hu), andb_true_r. destruct (Nat.eqb_spec v j) as [->|]; cbn [Datatypes.orb]; [destruct (existsb _ l); reflexivity|reflexivity]. }
  destruct (G (seq 0 d') m Hr Hc) as (m' & E & R1 & C1 & A); [intros j H; apply in_seq in H; lia|]. exists m'. repeat split; try assumption. intros u v Hu Hv. rewrite A by exact Hu.
  replace (existsb (Nat.eqb v) (seq 0 d')) with true; [reflexivity|]. symmetry. apply existsb_exists. exists v. split; [apply in_seq; lia|apply Nat.eqb_refl].
Qed.
Theorem daejeon_stored : forall Nmax sp o, rme_space Nmax sp -> labels_Nmax sp -> o_J0 o = 0 -> o_g0 o = 0 -> o_T0_min o = 0 -> 0 <= o_T0_max o <= 2 ->
  exists c, daejeon16 single Nmax_of o sp = Ok c /\ stores_num sp o c (isoscalar_rme (daejeon single)).
Proof.
  intros Nmax sp o Hsp Hnm HJ Hg Hmin Hmax. unfold daejeon16. rewrite HJ, Hg, Hmin. rewrite (proj2 (Z.leb_le 0 (o_T0_max o))) by lia. cbn [Z.eqb andb cassert bind].
  apply with_component_ok; try lia; [split; lia| |].
  2:{ intros t x N y M Ht. unfold isoscalar_rme. rewrite (proj2 (Z.eqb_neq _ _) Ht). reflexivity. }
  intros i k x y Hik Hx Hy Hrule. rewrite HJ, Hg in Hrule. pose proof (same_spin Nmax sp i k x y Hsp Hx Hy Hrule) as HS.
  destruct (Hnm x (nth_error_In _ _ Hx)) as [Lx Dx]. destruct (Hnm y (nth_error_In _ _ Hy)) as [Ly Dy].
  unfold daejeon_block. rewrite HS, Z.eqb_refl. cbn [negb]. rewrite !Z.quot_div_nonneg by lia.
  replace ((Nmax_of y - r_L y) / 2) with (Z.of_nat (r_dim y) - 1) by lia. replace ((Nmax_of x - r_L x) / 2) with (Z.of_nat (r_dim x) - 1) by lia. rewrite !zrange_nat.
  destruct (outer_fill (fun u v => daejeon single (r_J x) (r_S y) (r_L x) u (r_L y) v) (fun u v => v_daejeon16 single u v (r_L x) (r_L y) (r_J x) (r_S y) 1 0) (r_dim x) (r_dim y) (zero_block x y)) as (m & E & R1 & C1 & A); [reflexivity|reflexivity| |].
  { intros u v _ _. apply v_table. exact single_0. }
  exists m. split; [exact E|]. split; [exact R1|]. split; [exact C1|]. intros u v Hu Hv. rewrite A by assumption. f_equal. destruct Hrule as (HJ2 & HT2 & _).
  assert (EJ : r_J x = r_J y). { destruct Hsp as [Hall _]. destruct (Hall x (nth_error_In _ _ Hx)) as (_ & _ & _ & Cx & _). destruct (Hall y (nth_error_In _ _ Hy)) as (_ & _ & _ & Cy & _). unfold couples in *. lia. }
  assert (ET : r_T x = r_T y). { destruct Hsp as [Hall _]. destruct (Hall x (nth_error_In _ _ Hx)) as (_ & _ & Tx & _). destruct (Hall y (nth_error_In _ _ Hy)) as (_ & _ & Ty & _). unfold couples in *. lia. }
  unfold isoscalar_rme, same_pair, rl, potential_at. rewrite HS, EJ, ET, !Z.eqb_refl. cbn [andb]. 
  replace (r_L x + 2 * Z.of_nat u - r_L x) with (Z.of_nat u * 2) by lia. replace (r_L y + 2 * Z.of_nat v - r_L y) with (Z.of_nat v * 2) by lia. rewrite !Z.div_mul, !Nat2Z.id by lia. reflexivity.
Qed.
Theorem daejeon_refuses : forall o sp, ~ (o_J0 o = 0 /\ o_g0 o = 0 /\ o_T0_min o = 0 /\ 0 <= o_T0_max o) -> daejeon16 single Nmax_of o sp = AssertFail.
Proof.
  intros o sp H. unfold daejeon16. destruct (Z.eqb_spec (o_J0 o) 0); [|reflexivity]. destruct (Z.eqb_spec (o_g0 o) 0); [|reflexivity]. destruct (Z.eqb_spec (o_T0_min o) 0); [|reflexivity]. destruct (Z.leb_spec 0 (o_T0_max o)); [|reflexivity]. exfalso. apply H. auto.
Qed.
(** * relative-gen *)
Section Program.
Variable racah1 racah2 : Z -> Z -> Z -> Z -> Z -> Z -> Z -> R.
Variable w3j w6j : Z -> Z -> Z -> Z -> Z -> Z -> R.
Variable jrme : Z -> Z -> R.
Variable tgamma : R -> R.
Variable quad : list R -> list WfModel.fl -> num.
Variable racah12 : Z -> Z -> Z -> Z -> Z -> Z -> Z -> Z -> Z -> R.
Variable crme : Z -> Z -> Z -> R.
Variable jhalf : R.
Variable cj1 cj2 : Z -> Z -> R.
Variable inverse_r : Z -> Z -> Z -> Z -> R.
Variable B : rellib.
Notation gen_main := (gen_main racah1 racah2 w3j w6j jrme tgamma quad racah12 crme jhalf cj1 cj2 inverse_r (Some (daejeon16 single Nmax_of)) B).
Theorem gen_daejeon : forall ls p, gen_input true ls p -> g_name p = "interaction"%string -> g_args p = AInteraction "Daejeon16" -> let sp := space_of B (g_Nmax p) (g_Jmax p) in
  rme_space (g_Nmax p) sp -> labels_Nmax sp -> o_J0 (g_o p) = 0 -> o_g0 (g_o p) = 0 -> o_T0_min (g_o p) = 0 -> 0 <= o_T0_max (g_o p) <= 2 -> writable B (g_target p) = true ->
  g_Jmax p = Z.min (g_Nmax p + 1) 6 /\
  exists c, gen_main ls = Ok (g_target p, RelFile (g_o p) (g_Nmax p) (g_Jmax p) c) /\ stores_num sp (g_o p) c (isoscalar_rme (daejeon single)).
Proof.
  intros ls p Hin Hn Ha sp Hsp Hnm HJ Hg Hmin Hmax Hw. split.
  { destruct Hin as (_ & _ & _ & _ & Hj & _). rewrite Ha in Hj. exact Hj. }
  destruct (daejeon_stored (g_Nmax p) sp (g_o p) Hsp Hnm HJ Hg Hmin Hmax) as (c & E & S). exists c. split; [|exact S].
  unfold RgnModel.gen_main. cbn [has_daejeon]. rewrite (proj2 (gen_read_iff _ _ _) Hin). cbn [bind]. unfold gen_run, gen_populate. rewrite Hn, Ha. fold sp.
  cbn -[daejeon16 zero_operator coordinate_sqr_op dipole quadrupole orbital_am spin_am isospin_op su4_casimir coulomb symmunit LenModel.lo_gt LenModel.relative_gen_gt zero_components sp]. rewrite E. cbn [bind]. rewrite Hw. reflexivity.
Qed.
Theorem gen_daejeon_refused : forall ls p, gen_input true ls p -> g_name p = "interaction"%string -> g_args p = AInteraction "Daejeon16" ->
  ~ (o_J0 (g_o p) = 0 /\ o_g0 (g_o p) = 0 /\ o_T0_min (g_o p) = 0 /\ 0 <= o_T0_max (g_o p)) -> gen_main ls = AssertFail.
Proof.
  intros ls p Hin Hn Ha H. unfold RgnModel.gen_main. cbn [has_daejeon]. rewrite (proj2 (gen_read_iff _ _ _) Hin). cbn [bind]. unfold gen_run, gen_populate. rewrite Hn, Ha.
  cbn -[daejeon16 zero_operator coordinate_sqr_op dipole quadrupole orbital_am spin_am isospin_op su4_casimir coulomb symmunit LenModel.lo_gt LenModel.relative_gen_gt zero_components]. rewrite daejeon_refuses by exact H. reflexivity.
Qed.
(** * followed by moshinsky; its coefficients have arguments which are not doubled *)
Variable racahm : Z -> Z -> Z -> Z -> Z -> Z -> Z -> R.
Variable u6jz : Z -> Z -> Z -> Z -> Z -> Z -> R.
Variable u9j : Z -> Z -> Z -> Z -> Z -> Z -> Z -> R.
Variable mosh : Z -> Z -> Z -> Z -> Z -> Z -> Z -> Z -> Z -> R.
Variable flip : Z -> Z -> Z -> Z -> Z -> R.
Variable tol : R.
Variable M : basislib.
Notation mos_run := (mos_run u6jz racahm u9j mosh flip tol M).
Notation two_body p Jmax J0 F := (jt_rme (jt_of M (m_rank p) (m_cutoff p)) (jj_rme u9j (tb_rme mosh (relcm_rme u6jz racahm Jmax J0 F)))).
Theorem daejeon_then_moshinsky : forall ls p q pn, gen_input true ls p -> g_name p = "interaction"%string -> g_args p = AInteraction "Daejeon16" -> let sp := space_of B (g_Nmax p) (g_Jmax p) in
  rel_space (g_Nmax p) (g_Jmax p) sp -> labels_Nmax sp -> o_J0 (g_o p) = 0 -> o_g0 (g_o p) = 0 -> o_T0_min (g_o p) = 0 -> 0 <= o_T0_max (g_o p) <= 2 -> writable B (g_target p) = true ->
  flip_ok flip -> racah_flip racahm flip 0 ->
  exists f, gen_main ls = Ok (g_target p, f) /\
  (m_source q = g_target p -> reads_back_num B M (g_target p) f -> ready M flip (g_o p) (g_Nmax p) q pn ->
   exists bs, mos_run q = Ok (Some (m_target q, FH2 (m_format q) bs))
   /\ h2_blocks tol (g_o p) pn (pn_sectors M pn 0 0 (m_Tz0 q)) (two_body q (g_Jmax p) 0 (isoscalar_rme (daejeon single))) bs).
Proof.
  intros ls p q pn Hin Hn Ha sp (Hc & Hsp & HJm) Hnm HJ Hg Hmin Hmax Hw Hfl Hrf. destruct (gen_daejeon ls p Hin Hn Ha Hsp Hnm HJ Hg Hmin Hmax Hw) as (_ & c & E & S). eexists. split; [exact E|].
  intros Hq (c' & Er & Hst) Hre. cbn [rf_o rf_Nmax rf_Jmax rf_c] in *. rewrite <- Hq in Er.
  destruct (then_moshinsky u6jz racahm u9j mosh flip tol M q (g_o p) sp (g_Nmax p) (g_Jmax p) c' (isoscalar_rme (daejeon single)) pn Er Hre Hfl) as (bs & E1 & E2); try assumption; try lia.
  - rewrite HJ. exact Hrf.
  - apply Hst. exact S.
  - apply isoscalar_hermitian; [exact Hfl|]. apply daejeon_symmetric.
  - exists bs. rewrite HJ, Hg in E2. auto.
Qed.
End Program.
End Operator.
