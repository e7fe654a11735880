(** C89-C93: from relative operators to two-body operators in jj coupling (moshinsky_xform.cpp, moshinsky.cpp). *)
From Coq Require Import List ZArith Reals Bool Lia Lra.
From Verif Require Import Base RMat OscModel BlockModel MoshModel JpvModel JpvSpec IsoModel TrfModel TrfSpec TrfProof TrfFinal TrfId TrfCase.
Import ListNotations.
Open Scope Z_scope.

(** C89: a relative operator on relative-cm states: recoupling sum with the cm motion as spectator, every stored element of every sector *)
Theorem C89_relcm : forall (u6jz : Z -> Z -> Z -> Z -> Z -> Z -> R) (racah1 : Z -> Z -> Z -> Z -> Z -> Z -> Z -> R) (flip : Z -> Z -> Z -> Z -> Z -> R) rs o c F, rel_complete rs -> stores_rel rs o c F -> hermitian_rel flip F -> flip_ok flip -> forall sp, 0 <= o_T0_min o -> o_T0_max o <= 2 -> cm_space sp -> Forall (fun x => b_N (fst x) <= rel_Nmax rs) sp ->
  exists c', to_relcm u6jz racah1 flip o rs c sp = Ok c' /\ stores_ls sp o c' (relcm_rme u6jz racah1 (rel_Jmax rs) (o_J0 o) F).
Proof. exact to_relcm_ok. Qed.
Print Assumptions C89_relcm.

(** C89: relative quanta beyond the relative space are refused *)
Theorem C89_refused : forall u6jz racah1 flip rs sectors ms J0 T0 x y Nr lr Nr' lr' Nc lc, rel_Nmax rs < Z.max Nr Nr' ->
  relcm_element u6jz racah1 flip rs sectors ms J0 T0 x (Nr, lr, Nc, lc) y (Nr', lr', Nc, lc) = AssertFail.
Proof. exact relcm_element_refused. Qed.
Print Assumptions C89_refused.

(** C89: the cutoff in the relative angular momentum has no effect from N + 1 on *)
Theorem C89_cutoff : forall u6jz racah1 F Jmax Jmax' J0 T0 x p y q, lab_ok x -> lab_ok y -> cm_state x p -> cm_state y q ->
  b_N x + 1 <= Jmax -> b_N y + 1 <= Jmax -> b_N x + 1 <= Jmax' -> b_N y + 1 <= Jmax' ->
  relcm_rme u6jz racah1 Jmax J0 F T0 x p y q = relcm_rme u6jz racah1 Jmax' J0 F T0 x p y q.
Proof. exact relcm_cutoff. Qed.
Print Assumptions C89_cutoff.

Example C89_ex : forall x y, exists s m0 m1 r, to_relcm one6 one7 one5 scalar0 rel0 (diag0 x y) ls0 = Ok ((s, [m0; m1]) :: r) /\ (at_ m0 0 0 = x /\ at_ m1 0 0 = y)%R.
Proof. exact relcm_case. Qed.

Example C89_cutoff_ex : exists x p, lab_ok x /\ cm_state x p /\ relcm_rme one6 one7 0 0 (fun _ _ _ _ _ => 1%R) 0 x p x p = 0%R /\ relcm_rme one6 one7 1 0 (fun _ _ _ _ _ => 1%R) 0 x p x p = 1%R.
Proof. exact cutoff_case. Qed.

(** C90: the Moshinsky transformation: twice the sum over all relative-cm states of brackets times elements *)
Theorem C90_two_body : forall (mosh : Z -> Z -> Z -> Z -> Z -> Z -> Z -> Z -> Z -> R), forall o cm c tb G, 0 <= o_T0_min o -> o_T0_max o <= 2 -> cm_space cm -> tb_space tb -> covers cm tb -> stores_ls cm o c G ->
  exists c', to_two_body mosh o cm c tb = Ok c' /\ stores_ls tb o c' (tb_rme mosh G).
Proof. exact to_two_body_ok. Qed.
Print Assumptions C90_two_body.

(** C90: a subspace which the relative-cm space lacks is not reported: undefined *)
Theorem C90_missing : exists cm c tb G, cm_space cm /\ stores_ls cm scalar0 c G /\ tb_space tb /\ to_two_body one9 scalar0 cm c tb = UB.
Proof. exact two_body_missing. Qed.
Print Assumptions C90_missing.

Example C90_ex : forall x y, exists s m0 m1 r, to_two_body one9 scalar0 ls0 (diag0 x y) ls0 = Ok ((s, [m0; m1]) :: r) /\ (at_ m0 0 0 = 2 * x /\ at_ m1 0 0 = 2 * y)%R.
Proof. exact two_body_case. Qed.

(** C91: recoupling to jj: sum over all LS couplings allowed for the states *)
Theorem C91_jj : forall (u9j : Z -> Z -> Z -> Z -> Z -> Z -> Z -> R) (flip : Z -> Z -> Z -> Z -> Z -> R), forall o sp c jj H, 0 <= o_T0_min o -> o_T0_max o <= 2 -> tb_space sp -> jj_space jj -> ls_complete sp jj -> stores_ls sp o c H -> hermitian flip b_J b_T H ->
  exists c', to_jjjt u9j flip o sp c jj = Ok c' /\ stores_jj jj o c' (jj_rme u9j H).
Proof. exact to_jjjt_ok. Qed.
Print Assumptions C91_jj.

(** C91: an LS space with all states of ordered orbitals suffices for jj states of ordered orbitals: the two orders agree *)
Theorem C91_complete : forall Nmax tb jj, tb_full Nmax tb -> jj_space jj -> Forall (fun X => a_N (fst X) <= Nmax /\ a_g (fst X) = a_N (fst X) mod 2 /\ Forall ordered_jj (snd X)) jj -> ls_complete tb jj.
Proof. exact full_complete. Qed.
Print Assumptions C91_complete.

(** C91: an LS state which the LS space lacks leaves its part out, without a message *)
Theorem C91_missing : exists ls c jj H m s r X p, tb_space ls /\ stores_ls ls scalar0 c H /\ hermitian one5 b_J b_T H /\ jj_space jj /\ In X jj /\ In p (snd X)
  /\ to_jjjt one7 one5 scalar0 ls c jj = Ok ((s, [m]) :: r) /\ at_ m 0 0 = 0%R /\ jj_rme one7 H 0 (fst X) p (fst X) p = 1%R.
Proof. exact jj_missing. Qed.
Print Assumptions C91_missing.

Example C91_ex : forall x y, exists s m0 m1 r, to_jjjt one7 one5 scalar0 ls0 (diag0 x y) jj0 = Ok ((s, [m0; m1]) :: r) /\ (at_ m0 0 0 = x /\ at_ m1 0 0 = y)%R.
Proof. exact jj_case. Qed.

(** C92: the three steps together *)
Theorem C92_transformation : forall (u6jz : Z -> Z -> Z -> Z -> Z -> Z -> R) (racah1 : Z -> Z -> Z -> Z -> Z -> Z -> Z -> R) (u9j : Z -> Z -> Z -> Z -> Z -> Z -> Z -> R) (mosh : Z -> Z -> Z -> Z -> Z -> Z -> Z -> Z -> Z -> R) (flip : Z -> Z -> Z -> Z -> Z -> R), forall o rs c F cm tb jj, 0 <= o_T0_min o -> o_T0_max o <= 2 -> flip_ok flip -> racah_flip racah1 flip (o_J0 o) ->
  rel_complete rs -> stores_rel rs o c F -> hermitian_rel flip F -> cm_space cm -> Forall (fun x => b_N (fst x) <= rel_Nmax rs) cm ->
  tb_space tb -> covers cm tb -> jj_space jj -> ls_complete tb jj ->
  exists c', moshinsky_rel u6jz racah1 u9j mosh flip o rs c cm tb jj = Ok c'
  /\ stores_jj jj o c' (jj_rme u9j (tb_rme mosh (relcm_rme u6jz racah1 (rel_Jmax rs) (o_J0 o) F))).
Proof. exact moshinsky_rel_ok. Qed.
Print Assumptions C92_transformation.

(** C92: reduced matrix elements in the convention of Rose satisfy the conditions on the coefficients *)
Theorem C92_rose : forall sixj J0, (forall a b c d e f, sixj a b c d e f = sixj e d c b a f) -> flip_ok flip_rose /\ racah_flip (racah_rose sixj) flip_rose J0.
Proof. exact rose_ok. Qed.
Print Assumptions C92_rose.

Example C92_ex : forall x y, exists s m0 m1 r, moshinsky_rel one6 one7 one7 one9 one5 scalar0 rel0 (diag0 x y) ls0 ls0 jj0 = Ok ((s, [m0; m1]) :: r)
  /\ s = [(0, 0); (1, 1)]%nat /\ (at_ m0 0 0 = 2 * x /\ at_ m1 0 0 = 2 * y)%R.
Proof. exact transform_case. Qed.

(** C93: the relative identity becomes the identity of antisymmetrized two-body states, if the coefficients are unitary and have their exchange symmetries *)
Theorem C93_identity : forall u6jz racah1 u9j mosh flip o rs c cm tb jj, coefficients_ok u6jz racah1 u9j mosh flip (rel_Nmax rs) ->
  o_J0 o = 0 -> 0 <= o_T0_min o -> o_T0_max o <= 2 ->
  rel_complete rs -> rel_Nmax rs + 1 <= rel_Jmax rs -> stores_rel rs o c id_rel -> cm_space cm -> Forall (fun x => b_N (fst x) <= rel_Nmax rs) cm ->
  tb_space tb -> covers cm tb -> jj_space jj -> ls_complete tb jj -> identity_states (rel_Nmax rs) jj ->
  exists c', moshinsky_rel u6jz racah1 u9j mosh flip o rs c cm tb jj = Ok c' /\ stores_jj jj o c' id_jj.
Proof. exact identity_ok. Qed.
Print Assumptions C93_identity.

Example C93_coefficients_ex : coefficients_ok one6 one7 one7 one9 one5 0.
Proof. exact no_quanta. Qed.

Example C93_ex : exists c', moshinsky_rel one6 one7 one7 one9 one5 scalar0 rel0 (diag0 1 1) ls0 ls0 jj0 = Ok c' /\ stores_jj jj0 scalar0 c' id_jj
  /\ id_jj 0 (JLab 0 1 0 0) (0, 0, 1, (0, 0, 1)) (JLab 0 1 0 0) (0, 0, 1, (0, 0, 1)) = 2%R.
Proof. exact identity_case. Qed.

