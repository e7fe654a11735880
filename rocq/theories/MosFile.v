(** C144: the matrix elements written by moshinsky. *)
From Coq Require Import String List ZArith Reals Bool Lia Lra.
From Verif Require Import Base BaseLemmas RMat OscModel OscFinal BlockModel BlockProof MapModel ObioModel ObioMore MixModel MixSpec MixProof MoshModel JpvModel IsoModel IsoSpec IsoProof TrfModel TrfSpec TrfProof TrfFinal RgModel MosModel MosSpec MosProof.
Import ListNotations.
Open Scope Z_scope.
Open Scope outcome_scope.

Lemma jj_hermitian : forall u9j flip H, TrfSpec.hermitian flip b_J b_T H -> TrfSpec.hermitian flip a_J a_T (jj_rme u9j H).
Proof.
  intros u9j flip H Hh T0 X p Y q P1 P2 P3 P4. unfold jj_rme. rewrite lsum_swap, <- lsum_scale. apply lsum_ext. intros d _. rewrite <- lsum_scale. apply lsum_ext. intros c _. cbn zeta.
  rewrite (andb_comm (tb_stateb _ (orbs p))).
  destruct (tb_stateb (ls_of Y (fst d) (snd d)) (orbs q) && tb_stateb (ls_of X (fst c) (snd c)) (orbs p)); [|ring].
  rewrite (Hh T0 (ls_of X (fst c) (snd c))) by (cbn; assumption). cbn [ls_of b_J b_T]. ring.
Qed.
(** ** pairs in any order *)
Lemma exchange_sym : forall l a b, exchange l a b = exchange l b a.
Proof. intros [[J T] g] a b. unfold exchange. rewrite (Z.add_comm (snd a)). reflexivity. Qed.
Lemma exchange_sq : forall l a b, (exchange l a b * exchange l a b = 1)%R.
Proof. intros [[J T] g] a b. unfold exchange. destruct (Z.even _); ring. Qed.
Lemma before_total : forall a b, before a b = false -> before b a = true.
Proof.
  intros [N j] [N' j']. unfold before. cbn [fst snd]. rewrite orb_false_iff, andb_false_iff, orb_true_iff, andb_true_iff, !Z.ltb_ge, !Z.eqb_neq, !Z.eqb_eq, !Z.leb_gt, !Z.ltb_lt, !Z.leb_le. lia.
Qed.
Lemma before_anti : forall a b, before a b = true -> before b a = true -> a = b.
Proof.
  intros [N j] [N' j']. unfold before. cbn [fst snd]. rewrite !orb_true_iff, !andb_true_iff, !Z.eqb_eq, !Z.ltb_lt, !Z.leb_le. intros H1 H2. f_equal; lia.
Qed.
Lemma before_refl : forall a, before a a = true.
Proof. intros [N j]. unfold before. cbn [fst snd]. rewrite Z.eqb_refl, Z.leb_refl. apply orb_true_r. Qed.
Lemma orb_eqb_sym : forall a b, orb_eqb a b = orb_eqb b a.
Proof. intros a b. unfold orb_eqb. rewrite (Z.eqb_sym (fst a)), (Z.eqb_sym (snd a)). reflexivity. Qed.
Lemma pair_of_sym : forall a b, pair_of b a = pair_of a b.
Proof.
  intros a b. unfold pair_of. destruct (before a b) eqn:E; destruct (before b a) eqn:E'; try reflexivity.
  - rewrite (before_anti a b E E'). reflexivity.
  - rewrite (before_total a b E) in E'. discriminate.
Qed.
Lemma pair_factor_sym : forall l a b, pair_factor l b a = (exchange l a b * pair_factor l a b)%R.
Proof.
  intros l a b. unfold pair_factor. rewrite (orb_eqb_sym b a), (exchange_sym l b a). destruct (orb_eqb a b) eqn:E.
  - destruct (Req_EM_T (exchange l a b) 1) as [->|_]; ring.
  - destruct (before a b) eqn:B; destruct (before b a) eqn:B'.
    + rewrite (before_anti a b B B') in E. rewrite (proj2 (orb_eqb_ok b b) eq_refl) in E. discriminate.
    + ring.
    + symmetry. apply exchange_sq.
    + rewrite (before_total a b B) in B'. discriminate.
Qed.
Lemma jlab_of_sym : forall l a b, jlab_of l b a = jlab_of l a b.
Proof. intros [[J T] g] a b. unfold jlab_of. rewrite Z.add_comm. reflexivity. Qed.
Lemma jt_antisymmetric : forall sp H, antisymmetric (jt_rme sp H).
Proof.
  intros sp H. split; intros T0 l a b l' c d; unfold jt_rme; destruct (in_labels sp l && in_labels sp l'); try ring.
  - rewrite (pair_factor_sym l a b), (pair_of_sym a b), (jlab_of_sym l a b). ring.
  - rewrite (pair_factor_sym l' c d), (pair_of_sym c d), (jlab_of_sym l' c d). ring.
Qed.
Lemma in_labels_ok : forall sp l, in_labels sp l = true <-> In l (map tl sp).
Proof. intros sp l. unfold in_labels. destruct (in_dec tlabels_dec l (map tl sp)); intuition congruence. Qed.
Lemma jt_within : forall sp H, within sp (jt_rme sp H).
Proof.
  intros sp H T0 l a b l' c d Hn. unfold jt_rme in Hn. destruct (in_labels sp l && in_labels sp l') eqn:E; [|contradiction]. apply andb_true_iff in E. rewrite !in_labels_ok in E. exact E.
Qed.
Lemma jt_hermitian : forall flip sp H, flip_ok flip -> jt_space sp -> TrfSpec.hermitian flip a_J a_T H -> IsoSpec.hermitian (jt_factor flip sp) sp (jt_rme sp H).
Proof.
  intros flip sp H Hf Hsp Hh. unfold jt_space in Hsp. rewrite Forall_forall in Hsp. split.
  - intros T0 i k x y a b c d Hi Hk _. unfold jt_rme, jt_factor. rewrite Hi, Hk, (andb_comm (in_labels sp (tl y))). destruct (in_labels sp (tl x) && in_labels sp (tl y)); [|ring].
    destruct (Hsp x (nth_error_In _ _ Hi)) as (A1 & A2 & _). destruct (Hsp y (nth_error_In _ _ Hk)) as (B1 & B2 & _).
    rewrite (Hh T0 (jlab_of (tl x) a b)) by (cbn; lia). cbn [tl jlab_of a_J a_T]. ring.
  - intros T0 l a b c d. unfold jt_rme. destruct (in_labels sp l) eqn:E; [|reflexivity]. cbn [andb]. apply in_labels_ok, in_map_iff in E. destruct E as (x & <- & Hx). destruct (Hsp x Hx) as (A1 & A2 & _).
    rewrite (Hh T0 (jlab_of (tl x) a b)) by (cbn; lia). cbn [tl jlab_of a_J a_T]. rewrite (Hf T0 (t_J x) (t_T x)) by lia. ring.
Qed.
Lemma couples_sym : forall a b c, couples a b c -> couples c b a.
Proof. unfold couples. intros. lia. Qed.
Lemma even_perm : forall a b c, Z.even (a + b + c) = Z.even (c + b + a).
Proof. intros. f_equal. lia. Qed.
Lemma jt_stores : forall o sp c H bra ket, jt_space sp -> gathered o sp c H -> couples (q_J bra) (o_J0 o) (q_J ket) -> Z.even (q_g bra + o_g0 o + q_g ket) = true ->
  IsoSpec.stores (o_T0_min o) (o_T0_max o) (q_J bra) (q_g bra) (q_J ket) (q_g ket) sp c (jt_rme sp H).
Proof.
  intros o sp c H bra ket Hsp Hg HJ Hp T0 i k x y HT Hik Hx Hy Hl Htri. unfold jt_space in Hsp. rewrite Forall_forall in Hsp.
  destruct (Hsp x (nth_error_In _ _ Hx)) as (A1 & A2 & A3). destruct (Hsp y (nth_error_In _ _ Hy)) as (B1 & B2 & B3).
  destruct (Hg T0 i k x y) as (sectors & ms & q & m & E1 & E2 & E3 & E4 & E5 & E6 & E7); try assumption.
  { split; [|split].
    - destruct Hl as [(-> & _ & -> & _)|(-> & _ & -> & _)]; [exact HJ|apply couples_sym; exact HJ].
    - unfold couples. lia.
    - destruct Hl as [(_ & -> & _ & ->)|(_ & -> & _ & ->)]; [exact Hp|rewrite even_perm; exact Hp]. }
  exists sectors, ms, q, m. do 6 (split; [assumption|]). intros u v [a b] [d e] Hu Hv Huv. cbn [fst snd]. rewrite (E7 u v a b d e Hu Hv Huv). unfold jt_rme.
  rewrite (proj2 (in_labels_ok sp (tl x))) by (apply in_map, (nth_error_In _ _ Hx)). rewrite (proj2 (in_labels_ok sp (tl y))) by (apply in_map, (nth_error_In _ _ Hy)). cbn [andb].
  assert (K : forall z r s, (forall a b, In (a, b) (t_states z) -> before a b = true /\ (a = b -> exchange (tl z) a b = 1%R)) -> In (r, s) (t_states z) -> pair_factor (tl z) r s = 1%R /\ pair_of r s = (with_l r, with_l s)).
  { intros z r s HA Hin. destruct (HA r s Hin) as [C1 C2]. unfold pair_factor, pair_of. rewrite C1. split; [|reflexivity]. destruct (orb_eqb r s) eqn:E; [|reflexivity].
    apply orb_eqb_ok in E. destruct (Req_EM_T (exchange (tl z) r s) 1) as [_|Hn]; [reflexivity|]. destruct (Hn (C2 E)). }
  destruct (K x a b A3 (nth_error_In _ _ Hu)) as [-> ->]. destruct (K y d e B3 (nth_error_In _ _ Hv)) as [-> ->]. ring.
Qed.

(** ** collecting the blocks *)
Lemma collect_ok : forall {A C} (f : A -> outcome C) (P : A -> C -> Prop) l, (forall x, In x l -> exists y, f x = Ok y /\ P x y) ->
  forall acc, exists ys, for_each l (fun x bs => b <- f x ;; Ok (bs ++ [b])) acc = Ok (acc ++ ys) /\ Forall2 P l ys.
Proof.
  intros A C f P l. induction l as [|x l IH]; intros H acc.
  - exists []. rewrite app_nil_r. split; [reflexivity|constructor].
  - destruct (H x (or_introl eq_refl)) as (y & E & Hy). cbn [for_each]. rewrite E. cbn [bind]. destruct (IH (fun z Hz => H z (or_intror Hz)) (acc ++ [y])) as (ys & E' & F).
    exists (y :: ys). rewrite E', <- app_assoc. split; [reflexivity|constructor; assumption].
Qed.
Lemma Forall2_in_r : forall {A C} (P : A -> C -> Prop) l k y, Forall2 P l k -> In y k -> exists x, In x l /\ P x y.
Proof. intros A C P l k y F. induction F as [|x z l k Hp _ IH]; [intros []|]. intros [->|H']; [exists x; cbn; auto|]. destruct (IH H') as (w & Hw & K). exists w. cbn. auto. Qed.

Lemma N2max_ok : forall r N, N2max r N = quanta_max r N.
Proof. intros [] N; unfold N2max, quanta_max; lia. Qed.

Section File.
Variable u6jz : Z -> Z -> Z -> Z -> Z -> Z -> R.
Variable racah1 : Z -> Z -> Z -> Z -> Z -> Z -> Z -> R.
Variable u9j : Z -> Z -> Z -> Z -> Z -> Z -> Z -> R.
Variable mosh : Z -> Z -> Z -> Z -> Z -> Z -> Z -> Z -> Z -> R.
Variable flip : Z -> Z -> Z -> Z -> Z -> R.
Variable tol : R.
Variable B : basislib.

Lemma at_z_ok : forall {A} (l : list A) i, 0 <= i -> (Z.to_nat i < length l)%nat -> exists x, at_z l i = Ok x.
Proof.
  intros A l i H1 H2. unfold at_z. replace (i <? 0) with false by (symmetry; apply Z.ltb_ge; exact H1). destruct (nth_error l (Z.to_nat i)) eqn:E; [eexists; reflexivity|]. apply nth_error_None in E. lia.
Qed.
Lemma diagnostics_ok : forall o c, 0 <= o_T0_min o -> (forall T0, in_range o T0 -> exists x, nth_error c (Z.to_nat T0) = Some x) -> diagnostics o c = Ok tt.
Proof.
  intros o c H0 H. unfold diagnostics. assert (K : forall l, (forall T0, In T0 l -> in_range o T0) -> for_each l (fun T0 _ => _ <- at_z c T0 ;; Ok tt) tt = Ok tt).
  { induction l as [|T0 l IH]; intros HI; [reflexivity|]. cbn [for_each]. pose proof (HI T0 (or_introl eq_refl)) as R0. destruct (H T0 R0) as (x & Hx). unfold at_z at 1. unfold in_range in R0.
    replace (T0 <? 0) with false by (symmetry; apply Z.ltb_ge; lia). rewrite Hx. cbn [get bind]. apply IH. intros z Hz. apply HI. right. exact Hz. }
  apply K. intros T0 Hin. apply in_zrange in Hin. exact Hin.
Qed.
Lemma stores_components : forall {A C} J T g (sp : list (A * list C)) o c G, TrfSpec.stores J T g sp o c G -> forall T0, in_range o T0 -> exists x, nth_error c (Z.to_nat T0) = Some x.
Proof. intros A C J T g sp o c G H T0 R0. destruct (H T0 R0) as (s & ms & E & _). eauto. Qed.

Lemma h2_order_ok : forall format ord, h2_order format ord -> ordering_of format = Ok ord.
Proof. intros format ord [[= <- <-]|[[= <- <-]|[[= <- <-]|[]]]]; reflexivity. Qed.
(** the branching and the file *)
Lemma pn_stage_ok : forall p o sp c H ord pn, flip_ok flip -> 0 <= o_T0_min o -> o_T0_max o <= 2 -> jt_space sp -> gathered o sp c H -> TrfSpec.hermitian flip a_J a_T H ->
  ordering_of (m_format p) = Ok ord -> pn = pn_of B (m_rank p) (m_cutoff p) ord -> can_write B (m_target p) = true -> 0 <= m_Tz0 p ->
  sectors_ok o (m_Tz0 p) pn (pn_sectors B pn (o_J0 o) (o_g0 o) (m_Tz0 p)) -> Forall (states_ok sp) pn ->
  exists bs, pn_stage flip tol B p o sp c = Ok (Some (m_target p, FH2 (m_format p) bs))
  /\ h2_blocks tol o pn (pn_sectors B pn (o_J0 o) (o_g0 o) (m_Tz0 p)) (jt_rme sp H) bs.
Proof.
  intros p o sp c H ord pn Hf H0 H2 Hsp Hg Hh Ho -> Hw HTz Hs Hst. unfold pn_stage. rewrite Ho, Hw. cbn [bind check]. set (pn := pn_of B (m_rank p) (m_cutoff p) ord) in *.
  rewrite Forall_forall in Hst.
  destruct (collect_ok (pn_block flip tol o sp c pn) (fun x y => fst y = x /\ forall bra ket, nth_error pn (fst x) = Some bra -> nth_error pn (snd x) = Some ket ->
     rows (snd y) = length (q_states bra) /\ cols (snd y) = length (q_states ket)
     /\ forall u v b d, nth_error (q_states bra) u = Some b -> nth_error (q_states ket) v = Some d ->
        chopped tol (if Nat.eqb (fst x) (snd x) && negb (Nat.leb u v) then 0%R else wigner_eckart (o_T0_min o) (o_T0_max o) (jt_rme sp H) bra ket b d) (at_ (snd y) u v))
     (pn_sectors B pn (o_J0 o) (o_g0 o) (m_Tz0 p))) with (acc := @nil (nat * nat * mat R)) as (bs & E & F).
  { intros [i k] Hin. destruct (Hs i k Hin) as (bra & ket & Ei & Ek & HJ & Hp & HT). unfold pn_block. cbn [fst snd]. rewrite Ei, Ek. cbn [get bind].
    destruct (branch_value (jt_factor flip sp) (o_T0_min o) (o_T0_max o) sp c (jt_rme sp H) bra ket (Nat.eqb i k)) as (m & Em & Er & Ec & Ea).
    - apply jt_antisymmetric.
    - apply jt_hermitian; assumption.
    - apply jt_within.
    - apply jt_stores; assumption.
    - apply Hst, (nth_error_In _ _ Ei).
    - apply Hst, (nth_error_In _ _ Ek).
    - lia.
    - exact H0.
    - exact H2.
    - rewrite Em. cbn [bind]. eexists. split; [reflexivity|]. cbn [fst snd]. split; [reflexivity|]. intros bra' ket' Ei' Ek'.
injection Ei' as <-. injection Ek' as <-.
      cbn [chop_matrix rows cols at_]. split; [exact Er|]. split; [exact Ec|]. intros u v b d Hu Hv. rewrite (Ea u v b d Hu Hv). apply chop_chopped. }
  cbn [app] in E. rewrite E. cbn [bind]. exists bs. split; [reflexivity|]. split.
  - clear -F. induction F as [|x y l k [<- _] _ IH]; [reflexivity|cbn [map]; rewrite IH; reflexivity].
  - intros i k m bra ket Hin Ei Ek. destruct (Forall2_in_r _ _ _ _ F Hin) as ([i' k'] & _ & E1 & K). cbn [fst snd] in *. injection E1 as <- <-. exact (K bra ket Ei Ek).
Qed.
(** from a relative-cm operator *)
Lemma ls_stage_pn : forall p o cm c G pn, m_from p = KRel \/ m_from p = KRelcm -> m_to p = KJjjpn -> flip_ok flip -> 0 <= o_T0_min o -> o_T0_max o <= 2 ->
  spaces_ok B cm (m_rank p) (m_cutoff p) -> jj_spaces_ok flip B o (m_rank p) (m_cutoff p) -> pn_spaces_ok B o (m_rank p) (m_cutoff p) (m_format p) (m_Tz0 p) pn ->
  stores_ls cm o c G -> TrfSpec.hermitian flip b_J b_T G -> can_write B (m_target p) = true -> 0 <= m_Tz0 p ->
  exists bs, ls_stage u9j mosh flip tol B p o cm c = Ok (Some (m_target p, FH2 (m_format p) bs))
  /\ h2_blocks tol o pn (pn_sectors B pn (o_J0 o) (o_g0 o) (m_Tz0 p)) (jt_rme (jt_of B (m_rank p) (m_cutoff p)) (jj_rme u9j (tb_rme mosh G))) bs.
Proof.
  intros p o cm c G pn Hfrom Hto Hf H0 H2 (S1 & S2 & S3) (J1 & J2 & J3 & J4) (ord & Ho' & -> & Hs & Hst) HG HhG Hw HTz. unfold ls_stage. pose proof (h2_order_ok _ _ Ho') as Ho.
  destruct (to_two_body_ok mosh o cm c (tb_of B (m_rank p) (m_cutoff p)) G H0 H2 S1 S2 S3 HG) as (c2 & E2 & G2).
  assert (Hh2 : TrfSpec.hermitian flip b_J b_T (tb_rme mosh G)) by (apply tb_hermitian; assumption).
  destruct (to_jjjt_ok u9j flip o (tb_of B (m_rank p) (m_cutoff p)) c2 (jj_of B (m_rank p) (m_cutoff p)) (tb_rme mosh G) H0 H2 S2 J1 J2 G2 Hh2) as (c3 & E3 & G3).
  destruct (J4 c3 _ G3 (jj_hermitian u9j flip _ Hh2)) as (c4 & E4 & _ & G4).
  destruct (pn_stage_ok p o _ c4 _ ord _ Hf H0 H2 J3 G4 (jj_hermitian u9j flip _ Hh2) Ho eq_refl Hw HTz Hs Hst) as (bs & E5 & K).
  exists bs. split; [|exact K].
  assert (E : (ct <- to_two_body mosh o cm c (tb_of B (m_rank p) (m_cutoff p)) ;; diagnostics o ct ;;; jj_stage u9j flip tol B p o (tb_of B (m_rank p) (m_cutoff p)) ct) = Ok (Some (m_target p, FH2 (m_format p) bs))).
  { rewrite E2. cbn [bind]. rewrite (diagnostics_ok o c2 H0 (stores_components _ _ _ _ _ _ _ G2)). cbn [bind]. unfold jj_stage. rewrite Hto.
    destruct Hfrom as [-> | ->]; rewrite E3; cbn [bind]; rewrite E4; cbn [bind]; exact E5. }
  rewrite Hto. destruct Hfrom as [-> | ->]; exact E.
Qed.
(** source rel *)
Lemma run_rel_pn : forall p o rs c F pn, m_from p = KRel -> m_to p = KJjjpn -> read_rel B (m_source p) = Ok (o, rs, c) -> flip_ok flip -> racah_flip racah1 flip (o_J0 o) ->
  0 <= o_T0_min o -> o_T0_max o <= 2 -> rel_complete rs -> stores_rel rs o c F -> hermitian_rel flip F ->
  let cm := cm_of B (quanta_max (m_rank p) (m_cutoff p)) in
  Forall (fun x => b_N (fst x) <= rel_Nmax rs) cm -> spaces_ok B cm (m_rank p) (m_cutoff p) -> jj_spaces_ok flip B o (m_rank p) (m_cutoff p) ->
  pn_spaces_ok B o (m_rank p) (m_cutoff p) (m_format p) (m_Tz0 p) pn -> can_write B (m_target p) = true -> 0 <= m_Tz0 p ->
  exists bs, mos_run u6jz racah1 u9j mosh flip tol B p = Ok (Some (m_target p, FH2 (m_format p) bs))
  /\ h2_blocks tol o pn (pn_sectors B pn (o_J0 o) (o_g0 o) (m_Tz0 p))
       (jt_rme (jt_of B (m_rank p) (m_cutoff p)) (jj_rme u9j (tb_rme mosh (relcm_rme u6jz racah1 (rel_Jmax rs) (o_J0 o) F)))) bs.
Proof.
  intros p o rs c F pn Hfrom Hto Hrd Hf Hr H0 H2 Hrs Hst Hh cm HN Hsp Hjj Hpn Hw HTz.
  destruct (to_relcm_ok u6jz racah1 flip rs o c F Hrs Hst Hh Hf cm H0 H2 (proj1 Hsp) HN) as (c1 & E1 & S1).
  destruct (ls_stage_pn p o cm c1 _ pn (or_introl Hfrom) Hto Hf H0 H2 Hsp Hjj Hpn S1 (relcm_hermitian u6jz racah1 flip _ _ _ Hr Hh) Hw HTz) as (bs & E2 & K).
  exists bs. split; [|exact K]. unfold mos_run, relcm_stage. rewrite ?N2max_ok. rewrite Hfrom, Hto. cbn [place]. cbn [Z.eqb Z.ltb Z.leb Z.compare Pos.compare negb check bind].
  rewrite Hrd. cbn [bind]. fold cm. rewrite E1. cbn [bind]. rewrite (diagnostics_ok o c1 H0 (stores_components _ _ _ _ _ _ _ S1)). cbn [bind]. exact E2.
Qed.
(** source relcm *)
Lemma run_relcm_pn : forall p o N c G pn, m_from p = KRelcm -> m_to p = KJjjpn -> read_cm B (m_source p) = Ok (o, N, c) -> flip_ok flip ->
  0 <= o_T0_min o -> o_T0_max o <= 2 -> stores_ls (cm_of B N) o c G -> TrfSpec.hermitian flip b_J b_T G ->
  spaces_ok B (cm_of B N) (m_rank p) (m_cutoff p) -> jj_spaces_ok flip B o (m_rank p) (m_cutoff p) ->
  pn_spaces_ok B o (m_rank p) (m_cutoff p) (m_format p) (m_Tz0 p) pn -> can_write B (m_target p) = true -> 0 <= m_Tz0 p ->
  exists bs, mos_run u6jz racah1 u9j mosh flip tol B p = Ok (Some (m_target p, FH2 (m_format p) bs))
  /\ h2_blocks tol o pn (pn_sectors B pn (o_J0 o) (o_g0 o) (m_Tz0 p)) (jt_rme (jt_of B (m_rank p) (m_cutoff p)) (jj_rme u9j (tb_rme mosh G))) bs.
Proof.
  intros p o N c G pn Hfrom Hto Hrd Hf H0 H2 Hst Hh Hsp Hjj Hpn Hw HTz.
  destruct (ls_stage_pn p o (cm_of B N) c _ pn (or_intror Hfrom) Hto Hf H0 H2 Hsp Hjj Hpn Hst Hh Hw HTz) as (bs & E2 & K).
  exists bs. split; [|exact K]. unfold mos_run, relcm_stage. rewrite ?N2max_ok. rewrite Hfrom, Hto. cbn [place]. cbn [Z.eqb Z.ltb Z.leb Z.compare Pos.compare Pos.eqb Pos.compare_cont negb check bind].
  rewrite Hrd. cbn [bind]. rewrite (diagnostics_ok o c H0 (stores_components _ _ _ _ _ _ _ Hst)). cbn [bind]. exact E2.
Qed.
(** ** the other targets *)
Lemma run_rel_start : forall p o rs c F, m_from p = KRel -> m_to p <> KRel -> read_rel B (m_source p) = Ok (o, rs, c) -> flip_ok flip ->
  0 <= o_T0_min o -> o_T0_max o <= 2 -> rel_complete rs -> stores_rel rs o c F -> hermitian_rel flip F ->
  let cm := cm_of B (quanta_max (m_rank p) (m_cutoff p)) in Forall (fun x => b_N (fst x) <= rel_Nmax rs) cm -> cm_space cm ->
  exists c1, stores_ls cm o c1 (relcm_rme u6jz racah1 (rel_Jmax rs) (o_J0 o) F) /\
  mos_run u6jz racah1 u9j mosh flip tol B p = match m_to p with
    | KRelcm => g <- gather_cm B o cm c1 (quanta_max (m_rank p) (m_cutoff p)) ;; check (can_write B (m_target p)) ;;; Ok (Some (m_target p, FRelcm o g))
    | _ => ls_stage u9j mosh flip tol B p o cm c1 end.
Proof.
  intros p o rs c F Hfrom Hto Hrd Hf H0 H2 Hrs Hst Hh cm HN Hsp.
  destruct (to_relcm_ok u6jz racah1 flip rs o c F Hrs Hst Hh Hf cm H0 H2 Hsp HN) as (c1 & E1 & S1).
  exists c1. split; [exact S1|]. unfold mos_run, relcm_stage. rewrite ?N2max_ok. rewrite Hfrom, Hrd. cbn [bind]. fold cm. rewrite E1. cbn [bind].
  rewrite (diagnostics_ok o c1 H0 (stores_components _ _ _ _ _ _ _ S1)). destruct (m_to p); try contradiction; reflexivity.
Qed.
Lemma run_relcm_start : forall p o N c G, m_from p = KRelcm -> m_to p = KLsjt \/ m_to p = KJjjt \/ m_to p = KJjjpn -> read_cm B (m_source p) = Ok (o, N, c) ->
  0 <= o_T0_min o -> stores_ls (cm_of B N) o c G -> mos_run u6jz racah1 u9j mosh flip tol B p = ls_stage u9j mosh flip tol B p o (cm_of B N) c.
Proof.
  intros p o N c G Hfrom Hto Hrd H0 Hst. unfold mos_run, relcm_stage. rewrite ?N2max_ok. rewrite Hfrom, Hrd. cbn [bind].
  rewrite (diagnostics_ok o c H0 (stores_components _ _ _ _ _ _ _ Hst)). destruct Hto as [->|[->| ->]]; reflexivity.
Qed.
(** target relcm: what is gathered is the relative-cm operator *)
Lemma run_rel_relcm : forall p o rs c F, m_from p = KRel -> m_to p = KRelcm -> read_rel B (m_source p) = Ok (o, rs, c) -> flip_ok flip ->
  0 <= o_T0_min o -> o_T0_max o <= 2 -> rel_complete rs -> stores_rel rs o c F -> hermitian_rel flip F ->
  let cm := cm_of B (quanta_max (m_rank p) (m_cutoff p)) in Forall (fun x => b_N (fst x) <= rel_Nmax rs) cm -> cm_space cm -> can_write B (m_target p) = true ->
  exists c1, stores_ls cm o c1 (relcm_rme u6jz racah1 (rel_Jmax rs) (o_J0 o) F) /\
  forall g, gather_cm B o cm c1 (quanta_max (m_rank p) (m_cutoff p)) = Ok g -> mos_run u6jz racah1 u9j mosh flip tol B p = Ok (Some (m_target p, FRelcm o g)).
Proof.
  intros p o rs c F Hfrom Hto Hrd Hf H0 H2 Hrs Hst Hh cm HN Hsp Hw. destruct (run_rel_start p o rs c F Hfrom ltac:(congruence) Hrd Hf H0 H2 Hrs Hst Hh HN Hsp) as (c1 & S1 & E).
  exists c1. split; [exact S1|]. intros g Hg. rewrite E, Hto. fold cm. rewrite Hg, Hw. reflexivity.
Qed.
(** target lsjt and jjjt *)
Lemma ls_stage_lsjt : forall p o cm c G, m_from p = KRel \/ m_from p = KRelcm -> m_to p = KLsjt -> 0 <= o_T0_min o -> o_T0_max o <= 2 ->
  spaces_ok B cm (m_rank p) (m_cutoff p) -> stores_ls cm o c G ->
  exists c', stores_ls (tb_of B (m_rank p) (m_cutoff p)) o c' (tb_rme mosh G) /\
  forall g, gather_ls B o (tb_of B (m_rank p) (m_cutoff p)) c' (m_rank p) (m_cutoff p) = Ok g -> has_components o g ->
  ls_stage u9j mosh flip tol B p o cm c = Ok (if can_write B (m_target p) then Some (m_target p, FLsjt o g) else None).
Proof.
  intros p o cm c G Hfrom Hto H0 H2 (S1 & S2 & S3) HG. unfold ls_stage. rewrite Hto.
  destruct (to_two_body_ok mosh o cm c (tb_of B (m_rank p) (m_cutoff p)) G H0 H2 S1 S2 S3 HG) as (c2 & E2 & G2). exists c2. split; [exact G2|]. intros g Hg Hlen.
  destruct Hfrom as [-> | ->]; rewrite E2; cbn [bind]; rewrite (diagnostics_ok o c2 H0 (stores_components _ _ _ _ _ _ _ G2)); cbn [bind]; rewrite Hg; cbn [bind];
    rewrite (diagnostics_ok o g H0 Hlen); reflexivity.
Qed.
Lemma ls_stage_jjjt : forall p o cm c G, m_from p = KRel \/ m_from p = KRelcm -> m_to p = KJjjt -> 0 <= o_T0_min o -> o_T0_max o <= 2 ->
  spaces_ok B cm (m_rank p) (m_cutoff p) -> jj_spaces_ok flip B o (m_rank p) (m_cutoff p) -> stores_ls cm o c G -> TrfSpec.hermitian flip b_J b_T G ->
  exists g, gathered o (jt_of B (m_rank p) (m_cutoff p)) g (jj_rme u9j (tb_rme mosh G)) /\
  ls_stage u9j mosh flip tol B p o cm c = Ok (if can_write B (m_target p) then Some (m_target p, FJjjt o g) else None).
Proof.
  intros p o cm c G Hfrom Hto H0 H2 (S1 & S2 & S3) (J1 & J2 & J3 & J4) HG HhG.
  destruct (to_two_body_ok mosh o cm c (tb_of B (m_rank p) (m_cutoff p)) G H0 H2 S1 S2 S3 HG) as (c2 & E2 & G2).
  assert (Hh2 : TrfSpec.hermitian flip b_J b_T (tb_rme mosh G)) by (apply tb_hermitian; assumption).
  destruct (to_jjjt_ok u9j flip o (tb_of B (m_rank p) (m_cutoff p)) c2 (jj_of B (m_rank p) (m_cutoff p)) (tb_rme mosh G) H0 H2 S2 J1 J2 G2 Hh2) as (c3 & E3 & G3).
  destruct (J4 c3 _ G3 (jj_hermitian u9j flip _ Hh2)) as (c4 & E4 & L4 & G4). exists c4. split; [exact G4|].
  unfold ls_stage, jj_stage. rewrite Hto.
  destruct Hfrom as [-> | ->]; rewrite E2; cbn [bind]; rewrite (diagnostics_ok o c2 H0 (stores_components _ _ _ _ _ _ _ G2)); cbn [bind]; rewrite E3; cbn [bind]; rewrite E4; cbn [bind];
    rewrite (diagnostics_ok o c4 H0 L4); reflexivity.
Qed.
Lemma run_rel_lsjt : forall p o rs c F, m_from p = KRel -> m_to p = KLsjt -> read_rel B (m_source p) = Ok (o, rs, c) -> flip_ok flip ->
  0 <= o_T0_min o -> o_T0_max o <= 2 -> rel_complete rs -> stores_rel rs o c F -> hermitian_rel flip F ->
  let cm := cm_of B (quanta_max (m_rank p) (m_cutoff p)) in Forall (fun x => b_N (fst x) <= rel_Nmax rs) cm -> spaces_ok B cm (m_rank p) (m_cutoff p) ->
  exists c', stores_ls (tb_of B (m_rank p) (m_cutoff p)) o c' (tb_rme mosh (relcm_rme u6jz racah1 (rel_Jmax rs) (o_J0 o) F)) /\
  forall g, gather_ls B o (tb_of B (m_rank p) (m_cutoff p)) c' (m_rank p) (m_cutoff p) = Ok g -> has_components o g ->
  mos_run u6jz racah1 u9j mosh flip tol B p = Ok (if can_write B (m_target p) then Some (m_target p, FLsjt o g) else None).
Proof.
  intros p o rs c F Hfrom Hto Hrd Hf H0 H2 Hrs Hst Hh cm HN Hsp. destruct (run_rel_start p o rs c F Hfrom ltac:(congruence) Hrd Hf H0 H2 Hrs Hst Hh HN (proj1 Hsp)) as (c1 & S1 & E).
  rewrite E, Hto. exact (ls_stage_lsjt p o cm c1 _ (or_introl Hfrom) Hto H0 H2 Hsp S1).
Qed.
Lemma run_rel_jjjt : forall p o rs c F, m_from p = KRel -> m_to p = KJjjt -> read_rel B (m_source p) = Ok (o, rs, c) -> flip_ok flip -> racah_flip racah1 flip (o_J0 o) ->
  0 <= o_T0_min o -> o_T0_max o <= 2 -> rel_complete rs -> stores_rel rs o c F -> hermitian_rel flip F ->
  let cm := cm_of B (quanta_max (m_rank p) (m_cutoff p)) in Forall (fun x => b_N (fst x) <= rel_Nmax rs) cm -> spaces_ok B cm (m_rank p) (m_cutoff p) -> jj_spaces_ok flip B o (m_rank p) (m_cutoff p) ->
  exists g, gathered o (jt_of B (m_rank p) (m_cutoff p)) g (jj_rme u9j (tb_rme mosh (relcm_rme u6jz racah1 (rel_Jmax rs) (o_J0 o) F))) /\
  mos_run u6jz racah1 u9j mosh flip tol B p = Ok (if can_write B (m_target p) then Some (m_target p, FJjjt o g) else None).
Proof.
  intros p o rs c F Hfrom Hto Hrd Hf Hr H0 H2 Hrs Hst Hh cm HN Hsp Hjj. destruct (run_rel_start p o rs c F Hfrom ltac:(congruence) Hrd Hf H0 H2 Hrs Hst Hh HN (proj1 Hsp)) as (c1 & S1 & E).
  destruct (ls_stage_jjjt p o cm c1 _ (or_introl Hfrom) Hto H0 H2 Hsp Hjj S1 (relcm_hermitian u6jz racah1 flip _ _ _ Hr Hh)) as (g & G & E').
  exists g. split; [exact G|]. rewrite E, Hto. exact E'.
Qed.
Lemma run_relcm_lsjt : forall p o N c G, m_from p = KRelcm -> m_to p = KLsjt -> read_cm B (m_source p) = Ok (o, N, c) -> 0 <= o_T0_min o -> o_T0_max o <= 2 ->
  stores_ls (cm_of B N) o c G -> spaces_ok B (cm_of B N) (m_rank p) (m_cutoff p) ->
  exists c', stores_ls (tb_of B (m_rank p) (m_cutoff p)) o c' (tb_rme mosh G) /\
  forall g, gather_ls B o (tb_of B (m_rank p) (m_cutoff p)) c' (m_rank p) (m_cutoff p) = Ok g -> has_components o g ->
  mos_run u6jz racah1 u9j mosh flip tol B p = Ok (if can_write B (m_target p) then Some (m_target p, FLsjt o g) else None).
Proof.
  intros p o N c G Hfrom Hto Hrd H0 H2 Hst Hsp. rewrite (run_relcm_start p o N c G Hfrom (or_introl Hto) Hrd H0 Hst). exact (ls_stage_lsjt p o _ c _ (or_intror Hfrom) Hto H0 H2 Hsp Hst).
Qed.
Lemma run_relcm_jjjt : forall p o N c G, m_from p = KRelcm -> m_to p = KJjjt -> read_cm B (m_source p) = Ok (o, N, c) -> 0 <= o_T0_min o -> o_T0_max o <= 2 ->
  stores_ls (cm_of B N) o c G -> TrfSpec.hermitian flip b_J b_T G -> spaces_ok B (cm_of B N) (m_rank p) (m_cutoff p) -> jj_spaces_ok flip B o (m_rank p) (m_cutoff p) ->
  exists g, gathered o (jt_of B (m_rank p) (m_cutoff p)) g (jj_rme u9j (tb_rme mosh G)) /\
  mos_run u6jz racah1 u9j mosh flip tol B p = Ok (if can_write B (m_target p) then Some (m_target p, FJjjt o g) else None).
Proof.
  intros p o N c G Hfrom Hto Hrd H0 H2 Hst Hh Hsp Hjj. rewrite (run_relcm_start p o N c G Hfrom (or_intror (or_introl Hto)) Hrd H0 Hst). exact (ls_stage_jjjt p o _ c _ (or_intror Hfrom) Hto H0 H2 Hsp Hjj Hst Hh).
Qed.
(** ** a negative Tz0 *)
Lemma pn_stage_negative : forall p o sp c ord pn, ordering_of (m_format p) = Ok ord -> pn = pn_of B (m_rank p) (m_cutoff p) ord -> can_write B (m_target p) = true -> m_Tz0 p < 0 ->
  sectors_ok o (m_Tz0 p) pn (pn_sectors B pn (o_J0 o) (o_g0 o) (m_Tz0 p)) -> pn_sectors B pn (o_J0 o) (o_g0 o) (m_Tz0 p) <> [] ->
  pn_stage flip tol B p o sp c = AssertFail.
Proof.
  intros p o sp c ord pn Ho -> Hw HTz Hs Hne. unfold pn_stage. rewrite Ho, Hw. cbn [bind check]. set (pn := pn_of B (m_rank p) (m_cutoff p) ord) in *.
  destruct (pn_sectors B pn (o_J0 o) (o_g0 o) (m_Tz0 p)) as [|[i k] l]; [contradiction|]. destruct (Hs i k (or_introl eq_refl)) as (bra & ket & Ei & Ek & _ & _ & HT).
  cbn [for_each]. unfold pn_block. cbn [fst snd]. rewrite Ei, Ek. cbn [get bind]. unfold branch. replace (0 <=? q_Tz bra - q_Tz ket) with false by (symmetry; apply Z.leb_gt; lia). reflexivity.
Qed.
Lemma run_rel_negative : forall p o rs c F pn, m_from p = KRel -> m_to p = KJjjpn -> read_rel B (m_source p) = Ok (o, rs, c) -> flip_ok flip -> racah_flip racah1 flip (o_J0 o) ->
  0 <= o_T0_min o -> o_T0_max o <= 2 -> rel_complete rs -> stores_rel rs o c F -> hermitian_rel flip F ->
  let cm := cm_of B (quanta_max (m_rank p) (m_cutoff p)) in
  Forall (fun x => b_N (fst x) <= rel_Nmax rs) cm -> spaces_ok B cm (m_rank p) (m_cutoff p) -> jj_spaces_ok flip B o (m_rank p) (m_cutoff p) ->
  pn_spaces_ok B o (m_rank p) (m_cutoff p) (m_format p) (m_Tz0 p) pn -> can_write B (m_target p) = true -> m_Tz0 p < 0 -> pn_sectors B pn (o_J0 o) (o_g0 o) (m_Tz0 p) <> [] ->
  mos_run u6jz racah1 u9j mosh flip tol B p = AssertFail.
Proof.
  intros p o rs c F pn Hfrom Hto Hrd Hf Hr H0 H2 Hrs Hst Hh cm HN (S1 & S2 & S3) (J1 & J2 & J3 & J4) (ord & Ho & Epn & Hs & Hp) Hw HTz Hne.
  destruct (run_rel_start p o rs c F Hfrom ltac:(congruence) Hrd Hf H0 H2 Hrs Hst Hh HN S1) as (c1 & G1 & E). rewrite E, Hto. unfold ls_stage, jj_stage. rewrite Hfrom, Hto. clear E.
  assert (Hh1 : TrfSpec.hermitian flip b_J b_T (relcm_rme u6jz racah1 (rel_Jmax rs) (o_J0 o) F)) by (apply relcm_hermitian; assumption).
  destruct (to_two_body_ok mosh o cm c1 (tb_of B (m_rank p) (m_cutoff p)) _ H0 H2 S1 S2 S3 G1) as (c2 & E2 & G2).
  pose proof (tb_hermitian mosh flip _ Hh1) as Hh2.
  destruct (to_jjjt_ok u9j flip o (tb_of B (m_rank p) (m_cutoff p)) c2 (jj_of B (m_rank p) (m_cutoff p)) _ H0 H2 S2 J1 J2 G2 Hh2) as (c3 & E3 & G3).
  destruct (J4 c3 _ G3 (jj_hermitian u9j flip _ Hh2)) as (c4 & E4 & _ & _).
  fold cm. rewrite E2. cbn [bind]. rewrite (diagnostics_ok o c2 H0 (stores_components _ _ _ _ _ _ _ G2)). cbn [bind]. rewrite E3. cbn [bind]. rewrite E4. cbn [bind].
  exact (pn_stage_negative p o _ c4 ord pn (h2_order_ok _ _ Ho) Epn Hw HTz Hs Hne).
Qed.
End File.
