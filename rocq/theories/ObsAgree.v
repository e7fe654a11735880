(** Density files that are accepted agree with the statement that names them. *)
From Coq Require Import String List ZArith Reals Bool Lra Lia.
From Verif Require Import Base RMat H2Model MapModel OscModel BlockModel BlockSpec BlockProof ObioModel ObioSpec MixModel MixProof ObmModel NatModel RgModel HmModel ObsModel ObsSpec ObsProof.
Import ListNotations.
Open Scope R_scope.

Lemma get_cases : forall (ls : list dline), (exists l r, with_words ls = l :: with_words r /\ forall old, get_line old (open_text ls true) = (l, open_text r true))
  \/ (with_words ls = [] /\ forall old, fst (get_line old (open_text ls true)) = []).
Proof.
  intros ls. destruct (with_words ls) as [|l ws] eqn:E.
  - right. split; [reflexivity|]. intros old. unfold get_line. cbn [open_text st_fail st_eof orb st_rest st_nl]. revert old. induction ls as [|x ls IH]; intros old; [reflexivity|].
    cbn in E. destruct x as [|t x]; [|discriminate]. cbn [next_line is_nil]. rewrite andb_false_r. apply IH. exact E.
  - left. destruct (get_words0 ls l ws E) as (r & Hr & G). exists l, r. split; [rewrite Hr; reflexivity|exact G].
Qed.
Lemma scan_i_inv : forall (l : dline) z l', scan_i l = Ok (z, l') -> l = TInt z :: l' /\ in_i32 z = true.
Proof. intros [|[x|c|t] l] z l' H; cbn in H; try discriminate. destruct (in_i32 x) eqn:E; [|discriminate]. injection H as <- <-. auto. Qed.
Lemma scan_u_inv : forall (l : dline) z l', scan_u l = Ok (z, l') -> l = TInt z :: l' /\ in_u64 z = true.
Proof. intros [|[x|c|t] l] z l' H; cbn in H; try discriminate. destruct (in_u64 x) eqn:E; [|discriminate]. injection H as <- <-. auto. Qed.
Lemma cassert_inv : forall b (u : unit), cassert b = Ok u -> b = true.
Proof. intros [|] u H; [reflexivity|discriminate]. Qed.
(** a line of version 1520 with these quantum numbers; a last word that is not an integer stands for 0 *)
Definition agrees (l : dline) (twoJ g n : Z) : Prop :=
  exists z a seq M p k rest, l = [TInt z; TInt a; TInt seq; TInt twoJ; TInt M; TInt p; k] ++ rest
  /\ ((p = 1 /\ g = 0) \/ (p = -1 /\ g = 1))%Z /\ (k = TInt n \/ (n = 0%Z /\ forall i, k <> TInt i)).
Lemma single_state_inv : forall l twoJ g n x, single_state l twoJ g n = Ok x -> agrees l twoJ g n.
Proof.
  intros l twoJ g n x H. unfold single_state in H.
  destruct l as [|[z|?|?] l]; try discriminate. destruct l as [|[a|?|?] l]; try discriminate. destruct l as [|[sq|?|?] l]; try discriminate. destruct l as [|[J|?|?] l]; try discriminate.
  destruct l as [|[M|?|?] l]; try discriminate; [|destruct (J =? twoJ)%Z; discriminate|destruct (J =? twoJ)%Z; discriminate].
  apply bind_inv in H. destruct H as (u & HJ & H). apply cassert_inv in HJ. apply Z.eqb_eq in HJ. subst J.
  destruct l as [|[p|?|?] l]; try discriminate.
  apply bind_inv in H. destruct H as (u1 & Hp & H). apply bind_inv in H. destruct H as (u2 & Hg & H). apply cassert_inv in Hp, Hg. apply Z.eqb_eq in Hg.
  assert (Hpg : ((p = 1 /\ g = 0) \/ (p = -1 /\ g = 1))%Z).
  { apply orb_true_iff in Hp. destruct Hp as [Hp|Hp]; apply Z.eqb_eq in Hp; subst p; cbn in Hg; [left|right]; auto. }
  destruct l as [|k l]; [discriminate|]. destruct k as [k|c|t].
  - apply bind_inv in H. destruct H as (u3 & Hk & _). apply cassert_inv in Hk. apply Z.eqb_eq in Hk. subst k. exists z, a, sq, M, p, (TInt n), l. split; [reflexivity|]. auto.
  - apply bind_inv in H. destruct H as (u3 & Hk & _). apply cassert_inv in Hk. apply Z.eqb_eq in Hk. exists z, a, sq, M, p, (TChr c), l. split; [reflexivity|]. split; [exact Hpg|]. right. split; [congruence|discriminate].
  - apply bind_inv in H. destruct H as (u3 & Hk & _). apply cassert_inv in Hk. apply Z.eqb_eq in Hk. exists z, a, sq, M, p, (TNum t), l. split; [reflexivity|]. split; [exact Hpg|]. right. split; [congruence|discriminate].
Qed.
Theorem single_agrees : forall parse sp twoJb gb nb twoJk gk nk t d, snd t = true -> single_stream parse sp twoJb gb nb twoJk gk nk t = Ok d ->
  exists l1 l2 l3 l4 l5 l6 rest, with_words (fst t) = [l1; l2; l3; l4; l5; l6] ++ rest /\ ints l1 [1520%Z] /\ agrees l2 twoJb gb nb /\ agrees l3 twoJk gk nk
  /\ counts l6 [orbitals_in sp SP; orbitals_in sp SN].
Proof.
  intros parse sp twoJb gb nb twoJk gk nk [ls nl] d Hnl H. cbn [fst snd] in *. subst nl. unfold single_stream in H. cbn [fst snd] in H.
  destruct (get_cases ls) as [(l1 & r1 & W1 & G)|(W1 & G)]; [rewrite (G []) in H|specialize (G []); destruct (get_line [] (open_text ls true)) as [l1 s1]; cbn in G; subst; discriminate].
  apply bind_inv in H. destruct H as ([v w1] & Hv & H). destruct (Z.eqb_spec v 1520) as [->|]; [|discriminate].
  destruct (get_cases r1) as [(l2 & r2 & W2 & G2)|(W2 & G2)]; [rewrite (G2 []) in H|specialize (G2 []); destruct (get_line [] (open_text r1 true)) as [l2 s2]; cbn in G2; subst; discriminate].
  apply bind_inv in H. destruct H as ([[Zb Nb] Mb] & Hb & H).
  destruct (get_cases r2) as [(l3 & r3 & W3 & G3)|(W3 & G3)]; [rewrite (G3 l2) in H|specialize (G3 l2); destruct (get_line l2 (open_text r2 true)) as [l3 s3]; cbn in G3; subst; discriminate].
  apply bind_inv in H. destruct H as ([[Zk Nk] Mk] & Hk & H). apply bind_inv in H. destruct H as (u & _ & H).
  destruct (get_cases r3) as [(l4 & r4 & W4 & G4)|(W4 & G4)]; [rewrite (G4 l3) in H|specialize (G4 l3); destruct (get_line l3 (open_text r3 true)) as [l4 s4]; cbn in G4; subst; discriminate].
  apply bind_inv in H. destruct H as ([x4 w4] & H4 & H).
  destruct (get_cases r4) as [(l5 & r5 & W5 & G5)|(W5 & G5)]; [rewrite (G5 l4) in H|specialize (G5 l4); destruct (get_line l4 (open_text r4 true)) as [l5 s5]; cbn in G5; subst; discriminate].
  apply bind_inv in H. destruct H as ([x5 w5] & H5 & H).
  destruct (get_cases r5) as [(l6 & r6 & W6 & G6)|(W6 & G6)]; [rewrite (G6 l5) in H|specialize (G6 l5); destruct (get_line l5 (open_text r5 true)) as [l6 s6]; cbn in G6; subst; discriminate].
  apply bind_inv in H. destruct H as ([np w6] & H6 & H). apply bind_inv in H. destruct H as ([nn w7] & H7 & H). apply bind_inv in H. destruct H as (u7 & Ho & _).
  unfold orbitals_agree in Ho. apply bind_inv in Ho. destruct Ho as (u8 & Ho1 & Ho2). apply cassert_inv in Ho1, Ho2. apply Z.eqb_eq in Ho1, Ho2. rewrite species_number in Ho1, Ho2.
  apply scan_i_inv in Hv. destruct Hv as [-> Hv]. apply scan_u_inv in H6, H7. destruct H6 as [-> H6], H7 as [-> H7].
  exists (TInt 1520 :: w1), l2, l3, l4, l5, (TInt np :: TInt nn :: w7), (with_words r6). split; [rewrite W1, W2, W3, W4, W5, W6; reflexivity|].
  split; [exists w1; split; [reflexivity|repeat constructor]|]. split; [eapply single_state_inv; exact Hb|]. split; [eapply single_state_inv; exact Hk|].
  exists w7. rewrite Ho1, Ho2. split; [reflexivity|]. repeat constructor; assumption.
Qed.
(** the versions *)
Theorem single_version : forall parse sp twoJb gb nb twoJk gk nk t v l ls, snd t = true -> with_words (fst t) = (TInt v :: l) :: ls -> v <> 1520%Z ->
  single_stream parse sp twoJb gb nb twoJk gk nk t = Exit.
Proof.
  intros parse sp twoJb gb nb twoJk gk nk [tl nl] v l ls Hnl W Hv. cbn [fst snd] in *. subst nl. unfold single_stream. cbn [fst snd]. destruct (get_words0 _ _ _ W) as (r & _ & G). rewrite (G []).
  cbn [scan_i]. destruct (in_i32 v); [|reflexivity]. cbn [bind]. destruct (Z.eqb_spec v 1520); [contradiction|reflexivity].
Qed.
Theorem multi_version : forall sp twoJb gb nb twoJk gk nk ti t v l ls, snd ti = true -> with_words (fst ti) = (TInt v :: l) :: ls -> v <> 1405%Z -> v <> 1500%Z ->
  multi_stream sp twoJb gb nb twoJk gk nk ti t = Exit.
Proof.
  intros sp twoJb gb nb twoJk gk nk [tl nl] t v l ls Hnl W Hv Hv'. cbn [fst snd] in *. subst nl. unfold multi_stream, read_info. cbn [fst snd]. destruct (get_words0 _ _ _ W) as (r & _ & G). rewrite (G []).
  cbn [scan_i]. destruct (in_i32 v); [|reflexivity]. cbn [bind]. destruct (Z.eqb_spec v 1405); [contradiction|]. destruct (Z.eqb_spec v 1500); [contradiction|reflexivity].
Qed.
Definition multi_agrees_line (l : dline) (twoJ n : Z) : Prop := exists M T, ints l [M; twoJ; n; T].
Lemma multi_state_inv : forall l twoJ n M, multi_state l twoJ n = Ok M -> multi_agrees_line l twoJ n.
Proof.
  intros l twoJ n M H. unfold multi_state in H. apply bind_inv in H. destruct H as ([M' w] & H1 & H). apply bind_inv in H. destruct H as ([J w'] & H2 & H).
  apply bind_inv in H. destruct H as ([k w''] & H3 & H). apply bind_inv in H. destruct H as ([T w3] & H4 & H). apply bind_inv in H. destruct H as (u & HJ & H). apply bind_inv in H. destruct H as (u' & Hn & _).
  apply cassert_inv in HJ, Hn. apply Z.eqb_eq in HJ, Hn. subst. apply scan_i_inv in H1, H2, H3, H4. destruct H1 as [-> ?], H2 as [-> ?], H3 as [-> ?], H4 as [-> ?].
  exists M', T, w3. split; [reflexivity|]. repeat constructor; assumption.
Qed.
Lemma data_header_inv : forall version np nn twoJb nb twoJk nk ls x, data_header version np nn twoJb nb twoJk nk (open_text ls true) = Ok x ->
  exists l1 l2 l3 l4 l5 rest, with_words ls = [l1; l2; l3; l4; l5] ++ rest /\ ints l1 [version] /\ multi_agrees_line l3 twoJb nb /\ multi_agrees_line l4 twoJk nk
  /\ counts l5 (if (version =? 1405)%Z then [np; nn] else [(np + nn)%Z]).
Proof.
  intros version np nn twoJb nb twoJk nk ls x H. unfold data_header in H.
  destruct (get_cases ls) as [(l1 & r1 & W1 & G1)|(W1 & G1)]; [rewrite (G1 []) in H|specialize (G1 []); destruct (get_line [] (open_text ls true)) as [l1 s1]; cbn in G1; subst; discriminate].
  apply bind_inv in H. destruct H as ([v w1] & H1 & H). apply bind_inv in H. destruct H as (u & Hv & H). apply cassert_inv in Hv. apply Z.eqb_eq in Hv. subst v.
  destruct (get_cases r1) as [(l2 & r2 & W2 & G2)|(W2 & G2)]; [rewrite (G2 l1) in H|specialize (G2 l1); destruct (get_line l1 (open_text r1 true)) as [l2 s2]; cbn in G2; subst; discriminate].
  apply bind_inv in H. destruct H as ([z w2] & H2 & H). apply bind_inv in H. destruct H as ([a w2'] & H2' & H).
  destruct (get_cases r2) as [(l3 & r3 & W3 & G3)|(W3 & G3)]; [rewrite (G3 l2) in H|specialize (G3 l2); destruct (get_line l2 (open_text r2 true)) as [l3 s3]; cbn in G3; subst; discriminate].
  apply bind_inv in H. destruct H as (Mb & H3 & H).
  destruct (get_cases r3) as [(l4 & r4 & W4 & G4)|(W4 & G4)]; [rewrite (G4 l3) in H|specialize (G4 l3); destruct (get_line l3 (open_text r3 true)) as [l4 s4]; cbn in G4; subst; discriminate].
  apply bind_inv in H. destruct H as (Mk & H4 & H).
  destruct (get_cases r4) as [(l5 & r5 & W5 & G5)|(W5 & G5)]; [rewrite (G5 l4) in H|specialize (G5 l4); destruct (get_line l4 (open_text r4 true)) as [l5 s5]; cbn in G5; subst; destruct (version =? 1405)%Z; discriminate].
  exists l1, l2, l3, l4, l5, (with_words r5). split; [rewrite W1, W2, W3, W4, W5; reflexivity|]. apply scan_i_inv in H1. destruct H1 as [-> H1].
  split; [exists w1; split; [reflexivity|repeat constructor; exact H1]|]. split; [eapply multi_state_inv; exact H3|]. split; [eapply multi_state_inv; exact H4|].
  destruct (version =? 1405)%Z.
  - apply bind_inv in H. destruct H as ([ep w5] & H5 & H). apply bind_inv in H. destruct H as ([en w6] & H6 & H). apply bind_inv in H. destruct H as (u1 & E1 & H). apply bind_inv in H. destruct H as (u2 & E2 & _).
    apply cassert_inv in E1, E2. apply Z.eqb_eq in E1, E2. subst. apply scan_u_inv in H5, H6. destruct H5 as [-> ?], H6 as [-> ?]. exists w6. split; [reflexivity|repeat constructor; assumption].
  - apply bind_inv in H. destruct H as ([e w5] & H5 & H). apply bind_inv in H. destruct H as (u1 & E1 & H). apply cassert_inv in E1. apply Z.eqb_eq in E1. subst. apply scan_u_inv in H5. destruct H5 as [-> ?].
    exists w5. split; [reflexivity|repeat constructor; assumption].
Qed.
(** the info file has the orbitals of the space *)
Lemma read_info_inv : forall sp ls v J0_max np nn info, read_info sp (ls, true) = Ok (v, J0_max, np, nn, info) ->
  exists l1 l2 l3 l4 rest, with_words ls = [l1; l2; l3; l4] ++ rest /\ ints l1 [v]
  /\ (v = 1405%Z /\ counts l2 [orbitals_in sp SP] /\ orbitals_in sp SN = orbitals_in sp SP /\ counts l4 [np] /\ np = nn
      \/ v = 1500%Z /\ counts l3 [orbitals_in sp SP; orbitals_in sp SN] /\ counts l4 [np; nn]).
Proof.
  intros sp ls v J0_max np nn info H. unfold read_info in H. cbn [fst snd] in H.
  destruct (get_cases ls) as [(l1 & r1 & W1 & G1)|(W1 & G1)]; [rewrite (G1 []) in H|specialize (G1 []); destruct (get_line [] (open_text ls true)) as [l1 s1]; cbn in G1; subst; discriminate].
  apply bind_inv in H. destruct H as ([v' w1] & H1 & H). apply scan_i_inv in H1. destruct H1 as [-> H1].
  destruct (Z.eqb_spec v' 1405) as [->|N1].
  - apply bind_inv in H. destruct H as ([[[J0 n1] n2] s] & HH & H). apply bind_inv in H. destruct H as ([zs s'] & _ & H). injection H as <- <- <- <- <-.
    unfold info_header_1405 in HH.
    destruct (get_cases r1) as [(l2 & r2 & W2 & G2)|(W2 & G2)]; [rewrite (G2 []) in HH|specialize (G2 []); destruct (get_line [] (open_text r1 true)) as [l2 s2]; cbn in G2; subst; discriminate].
    apply bind_inv in HH. destruct HH as ([n w2] & H2 & HH). apply bind_inv in HH. destruct HH as (u & Ho & HH).
    destruct (get_cases r2) as [(l3 & r3 & W3 & G3)|(W3 & G3)]; [rewrite (G3 l2) in HH|specialize (G3 l2); destruct (get_line l2 (open_text r2 true)) as [l3 s3]; cbn in G3; subst; discriminate].
    apply bind_inv in HH. destruct HH as ([J w3] & H3 & HH).
    destruct (get_cases r3) as [(l4 & r4 & W4 & G4)|(W4 & G4)]; [rewrite (G4 l3) in HH|specialize (G4 l3); destruct (get_line l3 (open_text r3 true)) as [l4 s4]; cbn in G4; subst; discriminate].
    apply bind_inv in HH. destruct HH as ([e w4] & H4 & HH). injection HH as <- <- <- <-.
    unfold orbitals_agree in Ho. apply bind_inv in Ho. destruct Ho as (u8 & Ho1 & Ho2). apply cassert_inv in Ho1, Ho2. apply Z.eqb_eq in Ho1, Ho2. rewrite species_number in Ho1, Ho2.
    apply scan_u_inv in H2, H4. destruct H2 as [-> H2], H4 as [-> H4].
    exists (TInt 1405 :: w1), (TInt n :: w2), l3, (TInt e :: w4), (with_words r4). split; [rewrite W1, W2, W3, W4; reflexivity|]. split; [exists w1; split; [reflexivity|repeat constructor]|].
    left. split; [reflexivity|]. split; [exists w2; rewrite Ho1; split; [reflexivity|repeat constructor; assumption]|]. split; [congruence|]. split; [exists w4; split; [reflexivity|repeat constructor; assumption]|reflexivity].
  - destruct (Z.eqb_spec v' 1500) as [->|N2]; [|discriminate].
    apply bind_inv in H. destruct H as ([[[J0 n1] n2] s] & HH & H). apply bind_inv in H. destruct H as ([zs s'] & _ & H). injection H as <- <- <- <- <-.
    unfold info_header_1500 in HH.
    destruct (get_cases r1) as [(l2 & r2 & W2 & G2)|(W2 & G2)]; [rewrite (G2 []) in HH|specialize (G2 []); destruct (get_line [] (open_text r1 true)) as [l2 s2]; cbn in G2; subst; discriminate].
    apply bind_inv in HH. destruct HH as ([J w2] & H2 & HH).
    destruct (get_cases r2) as [(l3 & r3 & W3 & G3)|(W3 & G3)]; [rewrite (G3 l2) in HH|specialize (G3 l2); destruct (get_line l2 (open_text r2 true)) as [l3 s3]; cbn in G3; subst; discriminate].
    apply bind_inv in HH. destruct HH as ([a w3] & H3 & HH). apply bind_inv in HH. destruct HH as ([b w3'] & H3' & HH). apply bind_inv in HH. destruct HH as (u & Ho & HH).
    destruct (get_cases r3) as [(l4 & r4 & W4 & G4)|(W4 & G4)]; [rewrite (G4 l3) in HH|specialize (G4 l3); destruct (get_line l3 (open_text r3 true)) as [l4 s4]; cbn in G4; subst; discriminate].
    apply bind_inv in HH. destruct HH as ([e1 w4] & H4 & HH). apply bind_inv in HH. destruct HH as ([e2 w5] & H5 & HH). injection HH as <- <- <- <-.
    unfold orbitals_agree in Ho. apply bind_inv in Ho. destruct Ho as (u8 & Ho1 & Ho2). apply cassert_inv in Ho1, Ho2. apply Z.eqb_eq in Ho1, Ho2. rewrite species_number in Ho1, Ho2.
    apply scan_u_inv in H3, H3', H4, H5. destruct H3 as [-> H3], H3' as [-> H3'], H4 as [-> H4], H5 as [-> H5].
    exists (TInt 1500 :: w1), l2, (TInt a :: TInt b :: w3'), (TInt e1 :: TInt e2 :: w5), (with_words r4). split; [rewrite W1, W2, W3, W4; reflexivity|]. split; [exists w1; split; [reflexivity|repeat constructor]|].
    right. split; [reflexivity|]. split; [exists w3'; rewrite Ho1, Ho2; split; [reflexivity|repeat constructor; assumption]|exists w5; split; [reflexivity|repeat constructor; assumption]].
Qed.
Theorem multi_agrees : forall sp twoJb gb nb twoJk gk nk ti t d, snd ti = true -> snd t = true -> multi_stream sp twoJb gb nb twoJk gk nk ti t = Ok d ->
  exists v np nn, (exists l1 l2 l3 l4 rest, with_words (fst ti) = [l1; l2; l3; l4] ++ rest /\ ints l1 [v]
    /\ (v = 1405%Z /\ counts l2 [orbitals_in sp SP] /\ orbitals_in sp SN = orbitals_in sp SP /\ counts l4 [np] /\ np = nn
        \/ v = 1500%Z /\ counts l3 [orbitals_in sp SP; orbitals_in sp SN] /\ counts l4 [np; nn]))
  /\ exists l1 l2 l3 l4 l5 rest, with_words (fst t) = [l1; l2; l3; l4; l5] ++ rest /\ ints l1 [v] /\ multi_agrees_line l3 twoJb nb /\ multi_agrees_line l4 twoJk nk
     /\ counts l5 (if (v =? 1405)%Z then [np; nn] else [(np + nn)%Z]).
Proof.
  intros sp twoJb gb nb twoJk gk nk [li nli] [ls nl] d H1 H2 H. cbn [fst snd] in *. subst. unfold multi_stream in H. apply bind_inv in H. destruct H as ([[[[v J0] np] nn] info] & Hi & H).
  apply bind_inv in H. destruct H as ([[Mb Mk] s] & Hh & _). exists v, np, nn. split; [eapply read_info_inv; exact Hi|eapply data_header_inv; exact Hh].
Qed.
