(** Concrete cases for C94-C99. *)
From Coq Require Import String List ZArith Reals Bool Lia Lra.
From Verif Require Import Base RMat OscModel OscSpec OscProof OscFinal BlockModel BlockProof MoshModel JpvModel JpvSpec JpvProof IsoModel TrfModel TrfSpec TrfProof RmeModel RmeSpec RmeProof RmeFinal RmeUnit RmeSym.
Import ListNotations.
Open Scope Z_scope.

(** the name chooses the operator *)
Section Dispatch.
Variable racah1 racah2 : Z -> Z -> Z -> Z -> Z -> Z -> Z -> R.
Variable w3j w6j : Z -> Z -> Z -> Z -> Z -> Z -> R.
Variable jrme : Z -> Z -> R.
Variable other : string -> outcome ncomponents.
Variables (o : oplab) (sp : rspace).
Definition generate (name : string) (l : list word) : outcome ncomponents :=
  bind (read_request name l) (populate racah1 racah2 w3j w6j jrme other o sp).
Local Open Scope string_scope.
Theorem generate_by_name : forall T0 l,
  generate "zero" l = zero_operator o sp /\ generate "isospin" l = isospin_op jrme o sp /\ generate "su4casimir" l = su4_casimir o sp
  /\ generate "rsqr" l = coordinate_sqr_op o sp KR 0 /\ generate "ksqr" l = coordinate_sqr_op o sp KK 0
  /\ generate "orbital-am" (WInt T0 :: l) = orbital_am racah1 o sp T0 /\ generate "spin-am" (WInt T0 :: l) = spin_am racah1 racah2 o sp T0
  /\ generate "coordinate-sqr" (WStr "r" :: WInt T0 :: l) = coordinate_sqr_op o sp KR T0 /\ generate "coordinate-sqr" (WStr "k" :: WInt T0 :: l) = coordinate_sqr_op o sp KK T0
  /\ generate "dipole" (WStr "r" :: WInt T0 :: l) = dipole racah1 racah2 o sp KR T0 /\ generate "dipole" (WStr "k" :: WInt T0 :: l) = dipole racah1 racah2 o sp KK T0
  /\ generate "quadrupole" (WStr "r" :: WInt T0 :: l) = quadrupole w3j w6j o sp KR T0 /\ generate "quadrupole" (WStr "k" :: WInt T0 :: l) = quadrupole w3j w6j o sp KK T0
  /\ (forall a1 a2 a3 a4 a5 b1 b2 b3 b4 b5, generate "symmunit" (WInt T0 :: WInt a1 :: WInt a2 :: WInt a3 :: WInt a4 :: WInt a5 :: WInt b1 :: WInt b2 :: WInt b3 :: WInt b4 :: WInt b5 :: l)
      = symmunit o sp (UL T0 a1 a2 a3 a4 a5 b1 b2 b3 b4 b5))
  /\ forall name, In name ["identity"; "coulomb"; "interaction"; "LENPIC-LOGT"; "LENPIC-N2LOGT"] -> generate name l = other name.
Proof.
  intros T0 l. repeat match goal with |- _ /\ _ => split end; try reflexivity.
  intros name [<-|[<-|[<-|[<-|[<-|[]]]]]]; reflexivity.
Qed.
Definition operator_names : list string :=
  ["orbital-am"; "spin-am"; "coordinate-sqr"; "dipole"; "quadrupole"; "symmunit"; "zero"; "rsqr"; "ksqr"; "isospin"; "su4casimir";
   "identity"; "coulomb"; "interaction"; "LENPIC-LOGT"; "LENPIC-N2LOGT"].
Theorem generate_unknown : forall name l, ~ In name operator_names -> generate name l = Exit.
Proof.
  intros name l H. unfold generate, read_request.
  assert (G : forall s, In s operator_names -> String.eqb name s = false) by (intros s Hs; apply String.eqb_neq; intros ->; exact (H Hs)).
  rewrite !G by (cbn; tauto). cbn [orb others existsb]. rewrite !G by (cbn; tauto). reflexivity.
Qed.
Theorem generate_unknown_coordinate : forall name c T0 l, In name ["coordinate-sqr"; "dipole"; "quadrupole"] -> c <> "r" -> c <> "k" ->
  generate name (WStr c :: WInt T0 :: l) = Exit.
Proof.
  intros name c T0 l Hn Hr Hk. apply String.eqb_neq in Hr, Hk. unfold generate, read_request, coordinate_of.
  destruct Hn as [<-|[<-|[<-|[]]]]; cbn -[String.eqb]; rewrite Hr, Hk; reflexivity.
Qed.
Theorem generate_missing : forall name, In name ["orbital-am"; "spin-am"; "coordinate-sqr"; "dipole"; "quadrupole"; "symmunit"] -> generate name [] = Exit.
Proof. intros name [<-|[<-|[<-|[<-|[<-|[<-|[]]]]]]]; reflexivity. Qed.
End Dispatch.

(** subspaces 3S1, 1P1 for Nmax = 2 *)
Definition small : rspace := [RSub 0 1 1 0 0 2; RSub 1 0 1 0 1 1; RSub 1 1 1 1 1 1].
Lemma small_space : rme_space 2 small.
Proof.
  split.
  - intros x [<-|[<-|[<-|[]]]]; cbn; unfold couples; cbn; repeat split; lia.
  - intros [|[|[|i]]] [|[|[|k]]] x y Hik Hx Hy; cbn in Hx, Hy; try (destruct i; discriminate); try (destruct k; discriminate); try lia;
      injection Hx as <-; injection Hy as <-; cbn; lia.
Qed.
Lemma small_labels : rspace_ok small.
Proof. unfold rspace_ok. cbn. repeat constructor; cbn; intuition discriminate. Qed.
(** a diagonal unit tensor *)
Theorem case_unit : exists c, symmunit (OpLab 0 0 0 1) small (UL 0 0 0 1 1 0 2 0 1 1 0) = Ok c /\ stores_num small (OpLab 0 0 0 1) c (unit_element (UL 0 0 0 1 1 0 2 0 1 1 0))
  /\ unit_element (UL 0 0 0 1 1 0 2 0 1 1 0) 0 (0, 1, 1, 0) 0 (0, 1, 1, 0) 2 = 1%R /\ unit_element (UL 0 0 0 1 1 0 2 0 1 1 0) 0 (0, 1, 1, 0) 2 (0, 1, 1, 0) 0 = 0%R.
Proof.
  destruct (unit_stored 2 small (OpLab 0 0 0 1) (UL 0 0 0 1 1 0 2 0 1 1 0) small_space small_labels ltac:(cbn; lia) ltac:(cbn; lia) 0 0 _ _ eq_refl eq_refl eq_refl eq_refl 0 1)
    as (c & E & S'); try (cbn; lia).
  - unfold in_range. cbn. lia.
  - unfold jt_rule, couples. cbn. repeat split; lia.
  - exists c. split; [exact E|]. split; [exact S'|]. split; reflexivity.
Qed.
(** labels that do not fit are not refused: the lower triangle, an orbital angular momentum beyond Nmax, T0 = 3 *)
Theorem case_unit_bad : symmunit (OpLab 0 0 0 1) small (UL 0 0 0 1 1 0 2 2 1 1 0) = UB /\ symmunit (OpLab 1 1 0 1) small (UL 1 1 1 1 1 1 0 0 1 1 0) = UB
  /\ symmunit (OpLab 0 0 0 1) small (UL 3 0 0 1 1 0 2 0 1 1 0) = UB /\ symmunit (OpLab 0 0 0 1) small (UL 0 0 0 1 1 0 4 0 1 1 0) = AssertFail
  /\ symmunit (OpLab 0 0 0 1) small (UL 0 2 0 1 1 0 0 0 1 1 0) = AssertFail.
Proof. repeat split; reflexivity. Qed.
Theorem case_su4 : exists c s ms m, su4_casimir (OpLab 0 0 0 0) small = Ok c /\ nth_error c 0 = Some (s, ms) /\ s = [(0, 0); (1, 1); (2, 2)]%nat
  /\ nth_error ms 0 = Some m /\ at_ m 0 0 = Num 5 /\ at_ m 0 1 = Num 0 /\ at_ m 1 1 = Num 5 /\ (exists m', nth_error ms 1 = Some m' /\ at_ m' 0 0 = Num 9)
  /\ (exists m', nth_error ms 2 = Some m' /\ at_ m' 0 0 = Num 9).
Proof. do 4 eexists. split; [reflexivity|]. split; [reflexivity|]. split; [reflexivity|]. split; [reflexivity|]. repeat split; eexists; split; reflexivity. Qed.
(** A = 3, one species and three spin-isospin states: e i j = -5/4 for the antisymmetric state of spin-isospin *)
Theorem case_su4_three : let e := (fun i j : nat => if Nat.eqb i j then 15 / 4 else - (5 / 4))%R in
  (rsum 3 (fun i => rsum 3 (fun j => e i j)) = 15 / 4 /\ pairs_sum 3 (fun i j => e i i + e i j + e j i + e j j) = 15
   /\ pairs_sum 3 (fun _ _ => 15 / 2) = 45 / 2)%R.
Proof. cbn. repeat split; lra. Qed.
Theorem case_orbital : forall racah1, exists c s ms m, orbital_am racah1 (OpLab 1 0 0 1) small 0 = Ok c /\ nth_error c 0 = Some (s, ms) /\ s = [(0, 0); (1, 1); (2, 2)]%nat
  /\ nth_error ms 1 = Some m /\ at_ m 0 0 = Num (racah1 2 0 2 2 0 2 2 * sqrt 2).
Proof.
  intros racah1. do 4 eexists. split; [reflexivity|]. split; [reflexivity|]. split; [reflexivity|]. split; [reflexivity|]. reflexivity.
Qed.
Theorem case_spin_isovector : forall racah1 racah2, exists c s ms m, spin_am racah1 racah2 (OpLab 1 0 0 1) small 1 = Ok c /\ nth_error c 1 = Some (s, ms)
  /\ s = [(1, 2); (2, 2)]%nat /\ nth_error ms 0 = Some m
  /\ at_ m 0 0 = Num (3 / 2 * racah2 2 0 2 2 2 2 2 * (racah1 1 1 0 1 1 2 2 * racah1 1 1 0 1 1 2 2 + racah2 1 1 0 1 1 2 2 * racah2 1 1 0 1 1 2 2)).
Proof. intros. do 4 eexists. split; [reflexivity|]. split; [reflexivity|]. split; [reflexivity|]. split; reflexivity. Qed.
Theorem case_dipole : forall racah1 racah2, exists c s ms m, dipole racah1 racah2 (OpLab 1 1 0 2) small KR 1 = Ok c /\ nth_error c 1 = Some (s, ms)
  /\ s = [(0, 2)]%nat /\ nth_error ms 0 = Some m /\ rows m = 2%nat /\ cols m = 1%nat.
Proof. intros. do 4 eexists. split; [reflexivity|]. split; [reflexivity|]. split; [reflexivity|]. repeat split; reflexivity. Qed.
Theorem case_dipole_labels : forall racah1 racah2 sp ct, dipole racah1 racah2 (OpLab 1 0 0 2) sp ct 1 = AssertFail /\ dipole racah1 racah2 (OpLab 0 1 0 2) sp ct 1 = AssertFail
  /\ dipole racah1 racah2 (OpLab 1 1 0 2) sp ct 0 = AssertFail /\ dipole racah1 racah2 (OpLab 1 1 0 0) sp ct 1 = AssertFail.
Proof. repeat split; reflexivity. Qed.
(** wrong labels are refused *)
Theorem labels_refused : forall racah1 racah2 w3j w6j jrme o sp ct T0,
  (~ (o_J0 o = 1 /\ o_g0 o = 1 /\ T0 = 1 /\ in_range o T0) -> dipole racah1 racah2 o sp ct T0 = AssertFail)
  /\ (~ (o_J0 o = 2 /\ o_g0 o = 0 /\ (T0 = 0 \/ T0 = 1) /\ in_range o T0 /\ ct = KR) -> quadrupole w3j w6j o sp ct T0 = AssertFail)
  /\ (~ (o_J0 o = 1 /\ o_g0 o = 0 /\ (T0 = 0 \/ T0 = 1) /\ in_range o T0) -> orbital_am racah1 o sp T0 = AssertFail /\ spin_am racah1 racah2 o sp T0 = AssertFail)
  /\ (~ (o_J0 o = 0 /\ o_g0 o = 0 /\ in_range o 1) -> isospin_op jrme o sp = AssertFail)
  /\ (~ (o_J0 o = 0 /\ o_g0 o = 0 /\ o_T0_min o = 0 /\ 0 <= o_T0_max o) -> su4_casimir o sp = AssertFail).
Proof.
  intros. unfold dipole, quadrupole, orbital_am, spin_am, isospin_op, su4_casimir. pose proof (in_labels_ok o T0) as I. pose proof (in_labels_ok o 1) as I1.
  repeat match goal with |- _ /\ _ => split | |- _ -> _ => intros H end;
  repeat match goal with |- context [cassert (?a =? ?b)] => destruct (Z.eqb_spec a b); cbn [cassert bind]; try reflexivity end;
  repeat match goal with |- context [cassert ((T0 =? 0) || (T0 =? 1))] => destruct (Z.eqb_spec T0 0); [|destruct (Z.eqb_spec T0 1)]; cbn [orb cassert bind]; try reflexivity end;
  repeat match goal with |- context [in_labels ?a ?b] => destruct (in_labels a b); cbn [cassert bind]; try reflexivity end;
  try (destruct ct; cbn [cassert bind]; try reflexivity);
  try (exfalso; apply H; intuition congruence).
  all: destruct (Z.eqb_spec (o_T0_min o) 0); cbn [andb cassert bind]; try reflexivity; destruct (Z.leb_spec 0 (o_T0_max o)); cbn [cassert bind]; try reflexivity; exfalso; apply H; lia.
Qed.
(** 3S1-3D1 for Nmax = 2: the block within 3S1 is zero *)
Theorem case_quadrupole : forall w3j w6j, exists c s ms m m', quadrupole w3j w6j (OpLab 2 0 0 1) [RSub 0 1 1 0 0 2; RSub 2 1 1 0 0 1] KR 0 = Ok c /\ nth_error c 0 = Some (s, ms)
  /\ s = [(0, 0); (0, 1); (1, 1)]%nat /\ nth_error ms 0 = Some m /\ at_ m 0 0 = Num 0 /\ at_ m 0 1 = Num 0 /\ nth_error ms 1 = Some m' /\ rows m' = 2%nat /\ cols m' = 1%nat.
Proof. intros. do 5 eexists. split; [reflexivity|]. split; [reflexivity|]. split; [reflexivity|]. repeat split; reflexivity. Qed.
(** the statement that labels which do not fit are refused is false *)
Theorem unit_labels_unchecked : exists Nmax sp o u, rme_space Nmax sp /\ rspace_ok sp /\ 0 <= o_T0_min o /\ o_T0_max o <= 2 /\ in_range o (u_T0 u)
  /\ (exists b k, In b sp /\ In k sp /\ rl b = (u_Lp u, u_Sp u, u_Jp u, u_Tp u) /\ rl k = (u_L u, u_S u, u_J u, u_T u)
      /\ jt_rule (o_J0 o) (u_T0 u) (o_g0 o) (r_J b) (r_T b) (r_g b) (r_J k) (r_T k) (r_g k))
  /\ symmunit o sp u = UB.
Proof.
  exists 2, small, (OpLab 1 1 0 1), (UL 1 1 1 1 1 1 0 0 1 1 0). split; [exact small_space|]. split; [exact small_labels|]. split; [cbn; lia|]. split; [cbn; lia|].
  split; [unfold in_range; cbn; lia|]. split; [|reflexivity]. exists (RSub 1 1 1 1 1 1), (RSub 0 1 1 0 0 2). unfold small, jt_rule, couples. cbn. repeat split; auto; lia.
Qed.
