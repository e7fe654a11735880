(** Operators of relative-gen and their hermitian completion; relative-gen followed by moshinsky. *)
From Coq Require Import String List ZArith Reals Bool Lia Lra.
From Verif Require Import Base BaseLemmas RMat OscModel OscSpec OscFinal BlockModel BlockProof ObioModel MixModel MixProof MoshModel JpvModel JpvSpec JpvProof IsoModel IsoSpec IsoFinal TrfModel TrfSpec TrfProof TrfFinal RmeModel RmeSpec RmeProof RmeFinal RmeCase WfModel WfSpec LenModel LenSpec LenProof RelxModel RelxSpec RelxProof RgModel MosModel MosSpec MosFile RgnModel RgnSpec RgnInput RgnProof RgnFile RgnJpv RgnChain.
Import ListNotations.
Open Scope Z_scope.
Open Scope outcome_scope.

(** * Completion *)
Fixpoint place (sp : rspace) (x : rlab) : option nat :=
  match sp with [] => None | r :: sp' => if rlab_eqb (rl r) x then Some 0%nat else option_map S (place sp' x) end.
Lemma place_nth : forall sp i x, NoDup (map rl sp) -> nth_error sp i = Some x -> place sp (rl x) = Some i.
Proof.
  induction sp as [|r sp IH]; intros i x Nd Hi; [destruct i; discriminate|]. cbn [map] in Nd. apply NoDup_cons_iff in Nd. destruct Nd as [Hni Nd]. cbn [place]. destruct i as [|i]; cbn [nth_error] in Hi.
  - injection Hi as ->. rewrite (proj2 (rlab_iff _ _) eq_refl). reflexivity.
  - destruct (rlab_eqb (rl r) (rl x)) eqn:E.
    + apply rlab_iff in E. exfalso. apply Hni. rewrite E. apply in_map. eapply nth_error_In. exact Hi.
    + rewrite (IH i x Nd Hi). reflexivity.
Qed.
Lemma place_same : forall sp x y i, place sp x = Some i -> place sp y = Some i -> x = y.
Proof.
  induction sp as [|r sp IH]; intros x y i Hx Hy; [discriminate|]. cbn [place] in *. destruct (rlab_eqb (rl r) x) eqn:Ex, (rlab_eqb (rl r) y) eqn:Ey.
  - apply rlab_iff in Ex, Ey. congruence.
  - injection Hx as <-. destruct (place sp y); discriminate.
  - injection Hy as <-. destruct (place sp x); discriminate.
  - destruct (place sp x) as [a|] eqn:Ea; [|discriminate]. destruct (place sp y) as [b|] eqn:Eb; [|discriminate]. cbn in Hx, Hy. injection Hx as <-. injection Hy as ->. eapply IH; eassumption.
Qed.
Definition completion (flip : Z -> Z -> Z -> Z -> Z -> R) (sp : rspace) (F : element) : element := fun T0 x n y m =>
  match place sp x, place sp y with
  | Some i, Some k => if (i <? k)%nat || (i =? k)%nat && (n <=? m) then F T0 x n y m else (flip T0 (rl_J x) (rl_T x) (rl_J y) (rl_T y) * F T0 y m x n)%R
  | _, _ => 0%R
  end.
Lemma swap_inverse : forall J J', 0 <= J -> 0 <= J' -> (rose_swap J J' * rose_swap J' J = 1)%R.
Proof.
  intros J J' H H'. unfold rose_swap. assert (P : forall z, 0 <= z -> (0 < sqrt (IZR (2 * z + 1)))%R) by (intros z Hz; apply sqrt_lt_R0; apply (IZR_lt 0); lia).
  assert (P1 := P J H). assert (P2 := P J' H'). assert (S : (sign_of (J - J') * sign_of (J' - J) = 1)%R).
  { unfold sign_of. rewrite (Z.even_sub J J'), (Z.even_sub J' J). destruct (Z.even J), (Z.even J'); cbn; ring. }
  transitivity (sign_of (J - J') * sign_of (J' - J))%R; [field; lra|exact S].
Qed.
Lemma swap_same : forall J, 0 <= J -> rose_swap J J = 1%R.
Proof. intros J H. unfold rose_swap, sign_of. rewrite Z.sub_diag. cbn [Z.even]. field. apply Rgt_not_eq. apply sqrt_lt_R0. apply (IZR_lt 0). lia. Qed.
Lemma rose_ok : forall flip, rose_flip flip -> flip_ok flip.
Proof. intros flip H T0 J T HJ HT. rewrite H by assumption. rewrite !swap_same by assumption. ring. Qed.
Lemma completion_ok : forall flip sp F, rose_flip flip -> NoDup (map rl sp) -> completes flip sp F (completion flip sp F).
Proof.
  intros flip sp F Hf Nd. split.
  - intros T0 x n y m Jx Tx Jy Ty. unfold completion. destruct (place sp x) as [i|] eqn:Ei; [|destruct (place sp y); ring]. destruct (place sp y) as [k|] eqn:Ek; [|ring].
    assert (Hinv : (flip T0 (rl_J x) (rl_T x) (rl_J y) (rl_T y) * flip T0 (rl_J y) (rl_T y) (rl_J x) (rl_T x) = 1)%R).
    { rewrite !Hf by assumption. transitivity ((rose_swap (rl_J x) (rl_J y) * rose_swap (rl_J y) (rl_J x)) * (rose_swap (rl_T x) (rl_T y) * rose_swap (rl_T y) (rl_T x)))%R; [ring|]. rewrite !swap_inverse by assumption. ring. }
    destruct (Nat.ltb_spec i k) as [A|A]; cbn [Datatypes.orb].
    + destruct (Nat.ltb_spec k i) as [B|B]; [lia|]. destruct (Nat.eqb_spec k i) as [B'|B']; [lia|]. cbn [Datatypes.orb andb]. rewrite <- Rmult_assoc, Hinv. ring.
    + destruct (Nat.ltb_spec k i) as [B|B].
      * destruct (Nat.eqb_spec i k) as [B'|B']; [lia|]. reflexivity.
      * assert (i = k) by lia. subst k. rewrite Nat.eqb_refl. cbn [Datatypes.orb andb]. assert (x = y) by (eapply place_same; eassumption). subst y.
        rewrite (rose_ok flip Hf T0 _ _ Jx Tx). destruct (Z.leb_spec n m), (Z.leb_spec m n); try lia; try ring. assert (n = m) by lia. subst. ring.
  - intros T0 i k x y u v Hik Hx Hy Hu Hv Huv. unfold completion. rewrite (place_nth sp i x Nd Hx), (place_nth sp k y Nd Hy).
    destruct (Nat.ltb_spec i k) as [A|A]; [reflexivity|]. assert (i = k) by lia. subst k. assert (x = y) by congruence. subst y. rewrite Nat.eqb_refl. cbn [Datatypes.orb andb].
    destruct (Z.leb_spec (r_L x + 2 * Z.of_nat u) (r_L x + 2 * Z.of_nat v)); [reflexivity|lia].
Qed.
Lemma labels_distinct : forall Nmax sp, rme_space Nmax sp -> rspace_ok sp -> NoDup (map rl sp).
Proof.
  intros Nmax sp [H _] Ok. unfold rspace_ok in Ok.
  assert (E : map labels_of sp = map (fun l : rlab => let '(L, s, J, T) := l in (L, s, J, T, L mod 2)) (map rl sp)).
  { rewrite map_map. apply map_ext_in. intros x Hx. destruct (H x Hx) as (_ & _ & _ & _ & _ & Hg & _). unfold labels_of, rl. rewrite Hg. reflexivity. }
  rewrite E in Ok. eapply NoDup_map_inv. exact Ok.
Qed.
(** ** between the states of the space there is only one *)
Definition hermitian_on (flip : Z -> Z -> Z -> Z -> Z -> R) (sp : rspace) (F : element) : Prop := forall T0 x y u v, In x sp -> In y sp -> (u < r_dim x)%nat -> (v < r_dim y)%nat ->
  F T0 (rl x) (r_L x + 2 * Z.of_nat u) (rl y) (r_L y + 2 * Z.of_nat v) = (flip T0 (r_J x) (r_T x) (r_J y) (r_T y) * F T0 (rl y) (r_L y + 2 * Z.of_nat v)%Z (rl x) (r_L x + 2 * Z.of_nat u)%Z)%R.
Lemma completes_on : forall flip Nmax sp F G, rme_space Nmax sp -> completes flip sp F G -> hermitian_on flip sp G.
Proof.
  intros flip Nmax sp F G [H _] [HG _] T0 x y u v Hx Hy _ _. destruct (H x Hx) as (_ & _ & Tx & Cx & _). destruct (H y Hy) as (_ & _ & Ty & Cy & _). unfold couples in Cx, Cy.
  apply HG; change (rl_J (rl x)) with (r_J x); change (rl_J (rl y)) with (r_J y); change (rl_T (rl x)) with (r_T x); change (rl_T (rl y)) with (r_T y); lia.
Qed.
Lemma triangle_enough : forall flip sp F G, hermitian_on flip sp F -> hermitian_on flip sp G ->
  (forall T0 i k x y u v, (i <= k)%nat -> nth_error sp i = Some x -> nth_error sp k = Some y -> (u < r_dim x)%nat -> (v < r_dim y)%nat -> (i < k)%nat \/ (u <= v)%nat ->
     G T0 (rl x) (r_L x + 2 * Z.of_nat u) (rl y) (r_L y + 2 * Z.of_nat v) = F T0 (rl x) (r_L x + 2 * Z.of_nat u) (rl y) (r_L y + 2 * Z.of_nat v)) -> same_on sp F G.
Proof.
  intros flip sp F G HF HG H T0 x y u v Hx Hy Hu Hv. destruct (In_nth_error _ _ Hx) as (i & Hi). destruct (In_nth_error _ _ Hy) as (k & Hk).
  destruct (lt_eq_lt_dec i k) as [[A|A]|A].
  - apply (H T0 i k); auto; lia.
  - subst k. destruct (le_lt_dec u v) as [B|B]; [apply (H T0 i i); auto|]. rewrite (HG T0 x y u v), (HF T0 x y u v) by assumption. f_equal. apply (H T0 i i); auto. right. lia.
  - rewrite (HG T0 x y u v), (HF T0 x y u v) by assumption. f_equal. apply (H T0 k i); auto. lia.
Qed.
Theorem completion_unique : forall flip Nmax sp F G G', rme_space Nmax sp -> completes flip sp F G -> completes flip sp F G' -> same_on sp G G'.
Proof.
  intros flip Nmax sp F G G' Hsp H H'. apply (triangle_enough flip); [eapply completes_on; eassumption|eapply completes_on; eassumption|].
  intros T0 i k x y u v Hik Hx Hy Hu Hv Huv. rewrite (proj2 H' T0 i k), (proj2 H T0 i k) by assumption. reflexivity.
Qed.
Lemma stores_completed : forall flip Nmax Jmax sp o c F G, completes flip sp F G -> stores_rel (Rel sp Nmax Jmax) o c F -> stores_rel (Rel sp Nmax Jmax) o c G.
Proof.
  intros flip Nmax Jmax sp o c F G [_ HG] H T0 HT. destruct (H T0 HT) as (s & ms & Hn & Nd & Hv). exists s, ms. split; [exact Hn|]. split; [exact Nd|]. cbn [rel_subs] in *.
  intros i k x y Hik Hx Hy Hr. destruct (Hv i k x y Hik Hx Hy Hr) as (q & m & Hq & Hm & R1 & R2 & A). exists q, m. repeat (split; [assumption|]). intros u v Hu Hv' Huv. rewrite (A u v Hu Hv' Huv).
  symmetry. apply (HG T0 i k); assumption.
Qed.

(** * relative-gen followed by moshinsky *)
Section Chain.
Variable u6jz : Z -> Z -> Z -> Z -> Z -> Z -> R.
Variable racah1 : Z -> Z -> Z -> Z -> Z -> Z -> Z -> R.
Variable u9j : Z -> Z -> Z -> Z -> Z -> Z -> Z -> R.
Variable mosh : Z -> Z -> Z -> Z -> Z -> Z -> Z -> Z -> Z -> R.
Variable flip : Z -> Z -> Z -> Z -> Z -> R.
Variable tol : R.
Variable M : basislib.
Variable B : rellib.
Notation mos_run := (mos_run u6jz racah1 u9j mosh flip tol M).
Notation two_body p Jmax J0 F := (jt_rme (jt_of M (m_rank p) (m_cutoff p)) (jj_rme u9j (tb_rme mosh (relcm_rme u6jz racah1 Jmax J0 F)))).
Theorem gen_then_moshinsky : forall racah1d racah2 w3j w6j jrme tgamma quad racah12 crme jhalf cj1 cj2 inverse_r daejeon,
  let gen_main := gen_main racah1d racah2 w3j w6j jrme tgamma quad racah12 crme jhalf cj1 cj2 inverse_r daejeon B in
  let made := made racah1d racah2 w3j w6j tgamma quad racah12 crme inverse_r in
  forall ls p F q pn, gen_input (has_daejeon daejeon) ls p -> let sp := space_of B (g_Nmax p) (g_Jmax p) in rel_space (g_Nmax p) (g_Jmax p) sp -> identity_ok B ->
  (forall T' T, jrme T' T = if (T' =? T) then sqrt (IZR (T * (T + 1))) else 0%R) ->
  gamma_fn tgamma -> quad_ok quad -> one_spin jhalf racah1d racah2 cj1 cj2 -> diagonal2 racah2 ->
  0 <= o_T0_min (g_o p) -> o_T0_max (g_o p) <= 2 -> made sp (g_name p) (g_args p) (g_o p) F -> writable B (g_target p) = true ->
  rose_flip flip -> racah_flip racah1 flip (o_J0 (g_o p)) ->
  (exists G, completes flip sp F G) /\
  exists f, gen_main ls = Ok (g_target p, f) /\
  (m_source q = g_target p -> reads_back_num B M (g_target p) f -> ready M flip (g_o p) (g_Nmax p) q pn ->
   exists bs, mos_run q = Ok (Some (m_target q, FH2 (m_format q) bs))
   /\ forall G, completes flip sp F G -> h2_blocks tol (g_o p) pn (pn_sectors M pn (o_J0 (g_o p)) (o_g0 (g_o p)) (m_Tz0 q)) (two_body q (g_Jmax p) (o_J0 (g_o p)) G) bs).
Proof.
  intros racah1d racah2 w3j w6j jrme tgamma quad racah12 crme jhalf cj1 cj2 inverse_r daejeon gm mk ls p F q pn Hin sp (Hc & Hsp & HJ) Hid Hj Hgam Hqd H1 Hd Hmin Hmax Hm Hw Hrose Hrf. unfold gm, mk in *.
  assert (HG0 : completes flip sp F (completion flip sp F)) by (apply completion_ok; [exact Hrose|]; eapply labels_distinct; [exact Hsp|exact (proj1 Hc)]).
  split; [eexists; exact HG0|].
  destruct (gen_made racah1d racah2 w3j w6j jrme tgamma quad racah12 crme jhalf cj1 cj2 inverse_r daejeon B ls p F) as (c & E & S); try assumption; [exact (proj1 Hc)|]. eexists. split; [exact E|].
  intros Hq (c' & Er & Hst) Hre. cbn [rf_o rf_Nmax rf_Jmax rf_c] in *. rewrite <- Hq in Er.
  assert (K : forall G, completes flip sp F G -> exists bs, mos_run q = Ok (Some (m_target q, FH2 (m_format q) bs))
     /\ h2_blocks tol (g_o p) pn (pn_sectors M pn (o_J0 (g_o p)) (o_g0 (g_o p)) (m_Tz0 q)) (two_body q (g_Jmax p) (o_J0 (g_o p)) G) bs).
  { intros G HG. apply (then_moshinsky u6jz racah1 u9j mosh flip tol M q (g_o p) sp (g_Nmax p) (g_Jmax p) c' G pn Er Hre); try assumption; [apply rose_ok; exact Hrose| |exact (proj1 HG)].
    eapply stores_completed; [exact HG|]. apply Hst. exact S. }
  destruct (K _ HG0) as (bs & Eb & _). exists bs. split; [exact Eb|]. intros G HG. destruct (K G HG) as (bs' & Eb' & Hb). rewrite Eb in Eb'. injection Eb' as <-. exact Hb.
Qed.
End Chain.

(** * Operators which are their own completion *)
Section Own.
Variable racah1 racah2 : Z -> Z -> Z -> Z -> Z -> Z -> Z -> R.
Variable w3j w6j : Z -> Z -> Z -> Z -> Z -> Z -> R.
Variable flip : Z -> Z -> Z -> Z -> Z -> R.
Hypothesis Hrose : rose_flip flip.
Hypothesis H1 : exchange1 racah1.
Hypothesis H2 : exchange2 racah2.
Hypothesis Hp : pair_values racah1 racah2.
Hypothesis Hw : exchange_w w3j w6j.
Lemma orbital_hermitian : forall t T0 x n y m, 0 <= lab_L x -> (let '(_, s, _, _) := x in 0 <= s) -> 0 <= rl_J x -> 0 <= rl_J y -> 0 <= rl_T x -> 0 <= rl_T y ->
  orbital_rme racah1 t T0 x n y m = (flip T0 (rl_J x) (rl_T x) (rl_J y) (rl_T y) * orbital_rme racah1 t T0 y m x n)%R.
Proof.
  intros t T0 [[[L' s'] J'] T'] n [[[L s] J] T] m HL Hs HJ HJ' HT HT'. cbn [lab_L rl_J rl_T] in *. unfold orbital_rme, same. rewrite (Z.eqb_sym L L'), (Z.eqb_sym s s'), (Z.eqb_sym T T'), (Z.eqb_sym m n).
  destruct (T0 =? t); cbn [andb]; [|ring]. destruct (Z.eqb_spec L' L) as [->|]; cbn [andb]; [|ring]. destruct (Z.eqb_spec s' s) as [->|]; cbn [andb]; [|ring]. destruct (Z.eqb_spec T' T) as [->|]; cbn [andb]; [|ring].
  destruct (n =? m); [|ring]. unfold coupled1. assert (E := H1 L s J' L J HL Hs HJ HL HJ'). rewrite (swap_same L HL), Rmult_1_r in E. rewrite E, Hrose by assumption. rewrite (swap_same T) by assumption. ring.
Qed.
Lemma spin_pair : forall t s' s T' T, 0 <= s <= 1 -> 0 <= s' <= 1 -> 0 <= T <= 1 -> 0 <= T' <= 1 ->
  spin_factor racah1 racah2 t s' s T' T = (rose_swap s' s * rose_swap T' T * spin_factor racah1 racah2 t s s' T T')%R.
Proof.
  intros t s' s T' T Hs Hs' HT HT'. unfold spin_factor. destruct (t =? 0).
  { unfold same. rewrite (Z.eqb_sym s s'), (Z.eqb_sym T T'). destruct (Z.eqb_spec s' s) as [->|]; cbn [andb]; [|ring]. destruct (Z.eqb_spec T' T) as [->|]; [|ring]. rewrite !swap_same by lia. ring. }
  destruct Hp as (A1 & A2 & A3 & A4 & A5 & A6).
  assert (Q3 : (sqrt 3 * sqrt 3 = 3)%R) by (apply sqrt_sqrt; lra). assert (P3 : (0 < sqrt 3)%R) by (apply sqrt_lt_R0; lra).
  assert (S10 : rose_swap 1 0 = (- / sqrt 3)%R). { unfold rose_swap, sign_of. change (Z.even (1 - 0)) with false. change (2 * 0 + 1) with 1. change (2 * 1 + 1) with 3. rewrite sqrt_1. field. lra. }
  assert (S01 : rose_swap 0 1 = (- sqrt 3)%R). { unfold rose_swap, sign_of. change (Z.even (0 - 1)) with false. change (2 * 0 + 1) with 1. change (2 * 1 + 1) with 3. rewrite sqrt_1. field. }
  assert (S00 := swap_same 0 (Z.le_refl 0)). assert (S11 : rose_swap 1 1 = 1%R) by (apply swap_same; lia).
  assert (Z01 : forall a, 0 <= a <= 1 -> a = 0 \/ a = 1) by (intros; lia).
  assert (I3 : (/ sqrt 3 * sqrt 3 = 1)%R) by (field; lra).
  destruct (Z01 s Hs) as [->| ->], (Z01 s' Hs') as [->| ->], (Z01 T HT) as [->| ->], (Z01 T' HT') as [->| ->];
    unfold same; cbn -[IZR rose_swap sqrt]; rewrite ?S10, ?S01, ?S00, ?S11, ?A1, ?A2, ?A3, ?A4, ?A5, ?A6; try ring; generalize (sqrt (2 / 3)); intros; field_simplify_eq; try lra.
Qed.
Lemma spin_hermitian : forall t T0 L' s' J' T' n L s J T m, 0 <= L -> 0 <= s <= 1 -> 0 <= s' <= 1 -> 0 <= T <= 1 -> 0 <= T' <= 1 -> 0 <= J -> 0 <= J' ->
  spin_rme racah1 racah2 t T0 (L', s', J', T') n (L, s, J, T) m = (flip T0 J' T' J T * spin_rme racah1 racah2 t T0 (L, s, J, T) m (L', s', J', T') n)%R.
Proof.
  intros t T0 L' s' J' T' n L s J T m HL Hs Hs' HT HT' HJ HJ'. unfold spin_rme, same. rewrite (Z.eqb_sym L L'), (Z.eqb_sym m n). destruct (T0 =? t); cbn [andb]; [|ring].
  destruct (Z.eqb_spec L' L) as [->|]; cbn [andb]; [|ring]. destruct (n =? m); [|ring]. rewrite spin_pair by assumption. unfold coupled2.
  assert (E := H2 L s' J' s J HL ltac:(lia) HJ' ltac:(lia) HJ). rewrite Hrose by lia.
  transitivity ((racah2 (2 * L) (2 * s') (2 * J') (2 * L) (2 * s) (2 * J) 2 * rose_swap s' s) * (rose_swap T' T * spin_factor racah1 racah2 t s s' T T'))%R; [ring|]. rewrite E. ring.
Qed.
Lemma sign_sum : forall a b c d : Z, Z.even (a + b) = Z.even (c + d) -> (sign_of a * sign_of b = sign_of c * sign_of d)%R.
Proof. intros a b c d. unfold sign_of. rewrite !Z.even_add. destruct (Z.even a), (Z.even b), (Z.even c), (Z.even d); cbn; intros; try discriminate; ring. Qed.
Lemma couplesb_sym : forall a b c, couplesb a b c = couplesb c b a.
Proof. intros a b c. apply eq_true_iff_eq. unfold couplesb. rewrite !andb_true_iff, !Z.leb_le. lia. Qed.
Lemma quadrupole_hermitian : forall t T0 L' s' J' T' n L s J T m, ho n L' -> ho m L -> 0 <= J -> 0 <= J' -> 0 <= T -> 0 <= T' ->
  quadrupole_rme w3j w6j t T0 (L', s', J', T') n (L, s, J, T) m = (flip T0 J' T' J T * quadrupole_rme w3j w6j t T0 (L, s, J, T) m (L', s', J', T') n)%R.
Proof.
  intros t T0 L' s' J' T' n L s J T m Hn Hm HJ HJ' HT HT'. unfold quadrupole_rme, same. rewrite (Z.eqb_sym s s'), (Z.eqb_sym T T'), (couplesb_sym L 2 L'). destruct (T0 =? t); cbn [andb]; [|ring].
  destruct (couplesb L' 2 L); cbn [andb]; [|ring]. destruct (Z.eqb_spec s' s) as [->|]; cbn [andb]; [|ring]. destruct (Z.eqb_spec T' T) as [->|]; cbn [andb]; [|ring].
  rewrite Hrose, (swap_same T) by assumption. rewrite (sqr_symmetric n L' m L) by assumption. unfold y2_rme, rose_swap. destruct Hw as [W3 W6]. rewrite (W6 L' J' s J L 2), (W3 L 2 L').
  assert (P : forall z, 0 <= z -> (0 < sqrt (IZR (2 * z + 1)))%R) by (intros z Hz; apply sqrt_lt_R0; apply (IZR_lt 0); lia).
  assert (P1 := P J HJ). assert (P2 := P J' HJ').
  assert (S : (sign_of (L' + s + J) * sign_of L' = sign_of (J' - J) * (sign_of (L + s + J') * sign_of L))%R).
  { unfold sign_of. rewrite Z.even_sub, !Z.even_add. destruct (Z.even L'), (Z.even s), (Z.even J), (Z.even L), (Z.even J'); cbn; ring. }
  set (r := sqrt (5 / (4 * PI))). set (g := generator t T). set (v := val (coordinate_sqr m L n L' 1)).
  transitivity (/ 2 * ((sign_of (L' + s + J) * sign_of L') * sqrt (IZR (2 * J + 1)) * w6j L J s J' L' 2 * (r * sqrt (IZR (2 * L' + 1)) * sqrt (IZR (2 * L + 1)) * w3j L' 2 L 0 0 0)) * g * (2 * v))%R; [ring|].
  rewrite S. field. lra.
Qed.
(** ** N2LO Gamow-Teller *)
Variables (tgamma : R -> R) (quad : list R -> list fl -> num).
Variable racah12 : Z -> Z -> Z -> Z -> Z -> Z -> Z -> Z -> Z -> R.
Variable crme : Z -> Z -> Z -> R.
Hypothesis H12 : exchange12 racah12 crme.
Lemma Q_ext : forall npts c h h', (forall r, h r = h' r) -> Q quad npts c h = Q quad npts c h'.
Proof. intros npts c h h' H. unfold Q. do 2 f_equal. unfold samples. apply map_ext. intros z. unfold on_mesh. rewrite H. reflexivity. Qed.
Lemma cross_swap : forall s' s, 0 <= s <= 1 -> 0 <= s' <= 1 -> cross racah12 1 s' s = (- (rose_swap s' s * cross racah12 1 s s'))%R.
Proof. intros s' s Hs Hs'. unfold cross. rewrite (couplesb_sym s 1 s'). destruct (couplesb s' 1 s); [|ring]. change (2 * 1) with 2. rewrite (proj1 (proj2 H12) s' s) by assumption. ring. Qed.
Section Pair.
Variables (L' s' J' T' L s J T : Z).
Hypothesis (HL : 0 <= L) (HL' : 0 <= L') (Hs : 0 <= s <= 1) (Hs' : 0 <= s' <= 1) (HT : 0 <= T <= 1) (HT' : 0 <= T' <= 1) (HJ : 0 <= J) (HJ' : 0 <= J').
Let x : rlab := (L', s', J', T').
Let y : rlab := (L, s, J, T).
Lemma central_swap : forall f g, f = (rose_swap s' s * rose_swap T' T * g)%R -> central racah2 f x y = (rose_swap J' J * rose_swap T' T * central racah2 g y x)%R.
Proof.
  intros f g ->. unfold central, x, y. rewrite (Z.eqb_sym L L'). destruct (Z.eqb_spec L' L) as [E|]; [|ring]. subst L'. unfold coupled2.
  assert (E := H2 L s' J' s J HL ltac:(lia) HJ' ltac:(lia) HJ).
  transitivity ((racah2 (2 * L) (2 * s') (2 * J') (2 * L) (2 * s) (2 * J) 2 * rose_swap s' s) * (rose_swap T' T * g))%R; [ring|]. rewrite E. ring.
Qed.
Lemma tensor_swap : forall f g, f = (rose_swap s' s * rose_swap T' T * g)%R -> tensor racah12 crme f x y = (rose_swap J' J * rose_swap T' T * tensor racah12 crme g y x)%R.
Proof.
  intros f g ->. unfold tensor, x, y. rewrite (couplesb_sym L 2 L'). destruct (couplesb L' 2 L); [|ring]. unfold coupled12. change (2 * 2) with 4. change (2 * 1) with 2. destruct H12 as (A & _ & C). rewrite (C L' L) by assumption.
  assert (E := A L' s' J' L s J HL' ltac:(lia) HJ' HL ltac:(lia) HJ).
  transitivity ((racah12 (2 * L') (2 * s') (2 * J') (2 * L) (2 * s) (2 * J) 4 2 2 * (rose_swap L' L * rose_swap s' s)) * (crme L L' 2 * rose_swap T' T * g))%R; [ring|]. rewrite E. ring.
Qed.
Lemma gt_hermitian : forall b range npts T0 n m,
  gt_values tgamma quad racah1 racah2 racah12 crme b range npts T0 x n y m = (flip T0 J' T' J T * gt_values tgamma quad racah1 racah2 racah12 crme b range npts T0 y m x n)%R.
Proof.
  intros b range npts T0 n m. unfold gt_values, gt_rme. destruct (T0 =? 1); [|ring]. rewrite Hrose by lia.
  assert (E1 : sigma_tau racah1 racah2 x y = (rose_swap s' s * rose_swap T' T * sigma_tau racah1 racah2 y x)%R) by (unfold sigma_tau, x, y; rewrite spin_pair by assumption; ring).
  assert (E2 : sigma_tau_cross racah12 x y = (rose_swap s' s * rose_swap T' T * sigma_tau_cross racah12 y x)%R) by (unfold sigma_tau_cross, x, y; rewrite (cross_swap s' s), (cross_swap T' T) by assumption; ring).
  assert (C1 := central_swap _ _ E1). assert (C2 := central_swap _ _ E2). assert (T1 := tensor_swap _ _ E1). assert (T2 := tensor_swap _ _ E2).
  assert (Y : forall f h, Q quad npts (b * sqrt 2) (yukawa 1 (13803 / 100 / hc) range f h) = Q quad npts (b * sqrt 2) (yukawa 1 (13803 / 100 / hc) range h f)) by (intros; apply Q_ext; intros r; unfold yukawa; ring).
  assert (Z : forall f h, Q quad npts (b * sqrt 2) (tensor_yukawa (13803 / 100 / hc) range f h) = Q quad npts (b * sqrt 2) (tensor_yukawa (13803 / 100 / hc) range h f)) by (intros; apply Q_ext; intros r; unfold tensor_yukawa; ring).
  unfold gt_pion, gt_contact. unfold x, y in *. rewrite C1, C2, T1, T2.
  rewrite (Y (psi tgamma b L' (Z.to_nat ((n - L') / 2)))), (Z (psi tgamma b L' (Z.to_nat ((n - L') / 2)))). ring.
Qed.
End Pair.
End Own.
Theorem own_completion : forall racah1 racah2 w3j w6j tgamma quad racah12 crme inverse_r flip, rose_flip flip -> exchange1 racah1 -> exchange2 racah2 -> pair_values racah1 racah2 -> exchange_w w3j w6j -> exchange12 racah12 crme ->
  forall Nmax sp name a o F G, rme_space Nmax sp -> made racah1 racah2 w3j w6j tgamma quad racah12 crme inverse_r sp name a o F -> In name tensor_names -> completes flip sp F G -> same_on sp F G.
Proof.
  intros racah1 racah2 w3j w6j tgamma quad racah12 crme inverse_r flip Hrose H1 H2 Hp Hw H12 Nmax sp name a o F G Hsp Hm Hn HG.
  apply (triangle_enough flip); [|eapply completes_on; eassumption|exact (proj2 HG)].
  intros T0 x y u v Hx Hy Hu Hv. destruct (proj1 Hsp x Hx) as (Lx & Sx & Tx & Cx & _). destruct (proj1 Hsp y Hy) as (Ly & Sy & Ty & Cy & _). unfold couples in Cx, Cy.
  assert (Ho : forall l i, 0 <= l -> ho (l + 2 * Z.of_nat i) l) by (intros l i Hl; split; [lia|]; rewrite Z.add_simpl_l, Z.even_mul; reflexivity).
  destruct Hm; try (exfalso; cbn in Hn; intuition discriminate).
  - apply quadrupole_hermitian; try assumption; try (apply Ho; lia); try lia.
  - apply (orbital_hermitian racah1 flip Hrose H1); cbn; lia.
  - apply spin_hermitian; try assumption; lia.
  - unfold rl at 1 2. rewrite (spin_hermitian racah1 racah2 flip Hrose H2 Hp) by lia. unfold rl. ring.
  - apply gt_hermitian; try assumption; lia.
Qed.

(** * Cases *)
Definition sub_00 : rsub := RSub 0 0 0 1 0 1.
Definition sub_11 : rsub := RSub 0 1 1 0 0 1.
(** the unit operator from 3S1 to 1S0, of which only that element is stored, is made hermitian *)
Lemma completion_case : forall flip G, rose_flip flip -> completes flip [sub_00; sub_11] (unit_element (UL 1 0 0 0 0 1 0 0 1 1 0)) G ->
  G 1 (rl sub_00) 0 (rl sub_11) 0 = 1%R /\ G 1 (rl sub_11) 0 (rl sub_00) 0 = 1%R /\ G 1 (rl sub_00) 0 (rl sub_00) 0 = 0%R /\ unit_element (UL 1 0 0 0 0 1 0 0 1 1 0) 1 (rl sub_11) 0 (rl sub_00) 0 = 0%R.
Proof.
  intros flip G Hf [Hh HG].
  assert (A := HG 1 0%nat 1%nat sub_00 sub_11 0%nat 0%nat ltac:(lia) eq_refl eq_refl ltac:(cbn; lia) ltac:(cbn; lia) ltac:(lia)).
  assert (B := HG 1 0%nat 0%nat sub_00 sub_00 0%nat 0%nat ltac:(lia) eq_refl eq_refl ltac:(cbn; lia) ltac:(cbn; lia) ltac:(lia)). cbn [r_L sub_00 sub_11] in A, B.
  change (0 + 2 * Z.of_nat 0) with 0 in A, B. split; [rewrite A; reflexivity|]. split; [|split; [rewrite B; reflexivity|reflexivity]].
  rewrite (Hh 1 (rl sub_11) 0 (rl sub_00) 0) by (cbn; lia). rewrite A, Hf by (cbn; lia). cbn [rl rl_J rl_T sub_00 sub_11 r_J r_T].
  change (unit_element (UL 1 0 0 0 0 1 0 0 1 1 0) 1 (rl sub_00) 0 (rl sub_11) 0) with 1%R. rewrite swap_inverse by lia. ring.
Qed.
(** coefficients and factors with the symmetries assumed, nowhere zero; twice the integers are the doubled arguments *)
Definition hat (j : Z) : R := sqrt (IZR (j + 1)).
Definition sample1 (a b c d e f k : Z) : R := (sign_of ((c + d) / 2) * (hat f / hat d))%R.
Definition sample2 (a b c d e f k : Z) : R := (sign_of ((c + e) / 2) * (hat f / hat e))%R.
Definition sample_flip (T0 J T J' T' : Z) : R := (rose_swap J J' * rose_swap T T')%R.
Lemma sample_exchange : forall A B C D, 0 <= A -> 0 <= B -> 0 <= C -> 0 <= D ->
  (sign_of ((2 * A + 2 * D) / 2) * (hat (2 * B) / hat (2 * D)) * rose_swap C D = rose_swap A B * (sign_of ((2 * B + 2 * C) / 2) * (hat (2 * A) / hat (2 * C))))%R.
Proof.
  intros A B C D HA HB HC HD. unfold rose_swap, hat. rewrite <- !Z.mul_add_distr_l, !(Z.mul_comm 2 (_ + _)), !Z.div_mul by discriminate.
  assert (P : forall z, 0 <= z -> (0 < sqrt (IZR (2 * z + 1)))%R) by (intros z Hz; apply sqrt_lt_R0; apply (IZR_lt 0); lia).
  assert (P1 := P A HA). assert (P2 := P B HB). assert (P3 := P C HC). assert (P4 := P D HD).
  assert (S : (sign_of (A + D) * sign_of (C - D) = sign_of (A - B) * sign_of (B + C))%R).
  { unfold sign_of. rewrite !Z.even_sub, !Z.even_add. destruct (Z.even A), (Z.even B), (Z.even C), (Z.even D); cbn; ring. }
  transitivity (sign_of (A + D) * sign_of (C - D) * (sqrt (IZR (2 * B + 1)) / sqrt (IZR (2 * C + 1))))%R; [field; lra|]. rewrite S. field. lra.
Qed.
Lemma exchange_case : rose_flip sample_flip /\ exchange1 sample1 /\ exchange2 sample2 /\ forall J0, racah_flip (fun a b c d e f k => sample1 (2 * a) (2 * b) (2 * c) (2 * d) (2 * e) (2 * f) (2 * k)) sample_flip J0.
Proof.
  split; [intros T0 J T J' T' _ _ _ _; reflexivity|]. split; [|split].
  - intros L s J L' J' HL Hs HJ HL' HJ'. unfold sample1. apply sample_exchange; assumption.
  - intros L s J s' J' HL Hs HJ Hs' HJ'. unfold sample2. apply sample_exchange; assumption.
  - intros J0 T0 T T' Jr lc J Jr' J' H H0 H1 H2. unfold sample1, sample_flip. assert (E := sample_exchange J J' Jr Jr' H0 H2 H H1).
    transitivity (sign_of ((2 * J + 2 * Jr') / 2) * (hat (2 * J') / hat (2 * Jr')) * rose_swap Jr Jr' * rose_swap T T')%R; [ring|]. rewrite E. ring.
Qed.
Definition sample12 (a b c d e f k1 k2 k : Z) : R := if Z.even a then (sign_of ((c + d + e) / 2) * (hat f / (hat d * hat e)))%R else 0%R.
Definition sample_c (L' L k : Z) : R := (sign_of L' * hat (2 * L))%R.
Lemma exchange12_case : exchange12 sample12 sample_c.
Proof.
  assert (P : forall z, 0 <= z -> (0 < sqrt (IZR (2 * z + 1)))%R) by (intros z Hz; apply sqrt_lt_R0; apply (IZR_lt 0); lia).
  split; [|split].
  - intros L s J L' s' J' HL Hs HJ HL' Hs' HJ'. unfold sample12, rose_swap, hat. rewrite !Z.even_mul. cbn [Z.even Datatypes.orb]. rewrite <- !Z.mul_add_distr_l, !(Z.mul_comm 2 (_ + _)), !Z.div_mul by discriminate.
    assert (P1 := P L HL). assert (P2 := P s Hs). assert (P3 := P J HJ). assert (P4 := P L' HL'). assert (P5 := P s' Hs'). assert (P6 := P J' HJ').
    assert (S : (sign_of (J + L' + s') * sign_of (L - L') * sign_of (s - s') = sign_of (J - J') * sign_of (J' + L + s))%R).
    { unfold sign_of. rewrite !Z.even_sub, !Z.even_add. destruct (Z.even L), (Z.even s), (Z.even J), (Z.even L'), (Z.even s'), (Z.even J'); cbn; ring. }
    transitivity (sign_of (J + L' + s') * sign_of (L - L') * sign_of (s - s') * (sqrt (IZR (2 * J' + 1)) / (sqrt (IZR (2 * L + 1)) * sqrt (IZR (2 * s + 1)))))%R; [field; lra|]. rewrite S. field. lra.
  - intros s s' _ _. unfold sample12. cbn [Z.even]. ring.
  - intros L L' HL HL'. unfold sample_c, rose_swap, hat. assert (P1 := P L HL). assert (P2 := P L' HL').
    assert (S : (sign_of L = sign_of (L - L') * sign_of L')%R) by (unfold sign_of; rewrite Z.even_sub; destruct (Z.even L), (Z.even L'); cbn; ring).
    rewrite S. field. lra.
Qed.
