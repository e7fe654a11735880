(** NLO M1 operator of libraries/relative/lenpic_relcm_me.cpp. *)
From Coq Require Import List ZArith Reals Bool Lra Lia.
From Verif Require Import Base RMat OscModel OscSpec OscProof BlockModel BlockProof MoshModel JpvModel JpvSpec IsoModel TrfModel TrfSpec TrfProof RmeModel RmeSpec RmeProof RmeFinal.
From Verif Require Import LenModel WfModel WfSpec WfLag WfInt WfProof WfOsc WfEl WfSqr WfMesh WfGrid WfFinal LenSpec LenInt LenMesh LenGrid LenProof.
Import ListNotations.
Open Scope Z_scope.

(** * storing, as for relative operators *)
Definition cj (x : csub) : Z := c_J (fst x).
Definition ct (x : csub) : Z := c_T (fst x).
Definition cg (x : csub) : Z := c_g (fst x).
Definition cm_block_of (sp : cspace) (f : csub -> csub -> outcome (mat num)) (x : nat * nat) : outcome (mat num) :=
  bind (get (nth_error sp (fst x))) (fun b => bind (get (nth_error sp (snd x))) (fun k => f b k)).
Lemma cm_block_list : forall sp o T0 f G,
  (forall i k x y, (i <= k)%nat -> nth_error sp i = Some x -> nth_error sp k = Some y ->
     jt_rule (o_J0 o) T0 (o_g0 o) (cj x) (ct x) (cg x) (cj y) (ct y) (cg y) ->
     exists m, f x y = Ok m /\ rows m = length (snd x) /\ cols m = length (snd y)
     /\ forall u v a b, nth_error (snd x) u = Some a -> nth_error (snd y) v = Some b -> at_ m u v = G x y a b) ->
  exists ms, map_blocks (cm_block_of sp f) (cm_sectors sp (o_J0 o) T0 (o_g0 o)) = Ok ms
  /\ length ms = length (cm_sectors sp (o_J0 o) T0 (o_g0 o))
  /\ forall q i k x y, nth_error (cm_sectors sp (o_J0 o) T0 (o_g0 o)) q = Some (i, k) -> nth_error sp i = Some x -> nth_error sp k = Some y ->
     exists m, nth_error ms q = Some m /\ rows m = length (snd x) /\ cols m = length (snd y)
     /\ forall u v a b, nth_error (snd x) u = Some a -> nth_error (snd y) v = Some b -> at_ m u v = G x y a b.
Proof.
  intros sp o T0 f G H. set (s := cm_sectors _ _ _ _).
  assert (Hok : forall x, In x s -> exists m, cm_block_of sp f x = Ok m).
  { intros [i k] Hx. apply jt_sectors_in in Hx. destruct Hx as [Hle (x & y & Hx & Hy & Hj)].
    change (@nth_error csub sp i = Some x) in Hx. change (@nth_error csub sp k = Some y) in Hy. destruct (H i k x y Hle Hx Hy Hj) as (m & Em & _). exists m. unfold cm_block_of. cbn [fst snd]. rewrite Hx. cbn [get bind]. rewrite Hy. cbn [get bind]. exact Em. }
  destruct (map_blocks_ok _ _ _ s Hok) as (ms & Ems & Lms & Nms). exists ms. split; [exact Ems|]. split; [exact Lms|].
  intros q i k x y Hq Hx Hy. pose proof (nth_error_In _ _ Hq) as Hin. apply jt_sectors_in in Hin.
  destruct Hin as [Hle (x' & y' & Hx' & Hy' & Hj)]. change (@nth_error csub sp i = Some x') in Hx'. change (@nth_error csub sp k = Some y') in Hy'. rewrite Hx in Hx'. injection Hx' as <-. rewrite Hy in Hy'. injection Hy' as <-.
  destruct (H i k x y Hle Hx Hy Hj) as (m & Em & Hm). exists m. split; [|exact Hm].
  destruct (Nms q (i, k) Hq) as (m' & Hm' & Em'). unfold cm_block_of in Em'. cbn [fst snd] in Em'. rewrite Hx in Em'. cbn [get bind] in Em'. rewrite Hy in Em'.
  cbn [get bind] in Em'. rewrite Em in Em'. injection Em' as <-. exact Hm'.
Qed.
Definition cm_sectors_at (sp : cspace) (o : oplab) (T0 : Z) : lsectors :=
  if (o_T0_min o <=? T0) && (T0 <=? o_T0_max o) then cm_sectors sp (o_J0 o) T0 (o_g0 o) else [].
Lemma cm_zero_component_ok : forall sp o T0, exists ms, cm_zero_component o sp T0 = Ok (cm_sectors_at sp o T0, ms)
  /\ length ms = length (cm_sectors_at sp o T0)
  /\ forall q i k x y, nth_error (cm_sectors_at sp o T0) q = Some (i, k) -> nth_error sp i = Some x -> nth_error sp k = Some y ->
     exists m, nth_error ms q = Some m /\ rows m = length (snd x) /\ cols m = length (snd y)
     /\ forall u v (a b : four), nth_error (snd x) u = Some a -> nth_error (snd y) v = Some b -> at_ m u v = Num 0.
Proof.
  intros sp o T0. unfold cm_zero_component, cm_sectors_at. destruct ((o_T0_min o <=? T0) && (T0 <=? o_T0_max o)).
  - destruct (cm_block_list sp o T0 (fun b k => Ok (cm_zero_block b k)) (fun _ _ _ _ => Num 0)) as (ms & E & L & N).
    { intros i k x y _ Hx Hy _. eexists. split; [reflexivity|]. repeat split. }
    unfold cm_block_of in E. rewrite E. cbn [bind]. exists ms. split; [reflexivity|]. split; [exact L|exact N].
  - exists []. split; [reflexivity|]. split; [reflexivity|]. intros [|q] i k x y Hq; discriminate.
Qed.
Lemma cm_sectors_at_in : forall sp o T0 i k, In (i, k) (cm_sectors_at sp o T0) <-> in_range o T0 /\ (i <= k)%nat /\ exists x y, nth_error sp i = Some x /\ nth_error sp k = Some y
        /\ jt_rule (o_J0 o) T0 (o_g0 o) (cj x) (ct x) (cg x) (cj y) (ct y) (cg y).
Proof.
  intros sp o T0 i k. unfold cm_sectors_at, in_range. destruct ((o_T0_min o <=? T0) && (T0 <=? o_T0_max o)) eqn:E.
  - rewrite andb_true_iff, !Z.leb_le in E. unfold cm_sectors. rewrite jt_sectors_in. unfold cj, ct, cg. tauto.
  - rewrite andb_false_iff, !Z.leb_gt in E. split; [intros []|]. intros [H _]. lia.
Qed.
Lemma cm_sectors_at_nodup : forall sp o T0, NoDup (cm_sectors_at sp o T0).
Proof. intros. unfold cm_sectors_at. destruct (_ && _); [apply jt_sectors_nodup|constructor]. Qed.
Lemma cm_with_component_ok : forall sp o T0 f F, 0 <= o_T0_min o -> o_T0_max o <= 2 -> in_range o T0 ->
  (forall i k x y, (i <= k)%nat -> nth_error sp i = Some x -> nth_error sp k = Some y ->
     jt_rule (o_J0 o) T0 (o_g0 o) (cj x) (ct x) (cg x) (cj y) (ct y) (cg y) ->
     exists m, f x y = Ok m /\ rows m = length (snd x) /\ cols m = length (snd y)
     /\ forall u v a b, nth_error (snd x) u = Some a -> nth_error (snd y) v = Some b -> at_ m u v = Num (F T0 (cm_labels x) a (cm_labels y) b)) ->
  (forall t x N y M, t <> T0 -> F t x N y M = 0%R) ->
  exists c, cm_with_component o sp T0 f = Ok c /\ cm_stores sp o c F.
Proof.
  intros sp o T0 f F H0 H2 Hr Hf Hz. unfold cm_with_component, cm_zero_operator. rewrite (proj2 (Z.ltb_ge _ _) H0), (proj2 (Z.ltb_ge _ _) H2). cbn [orb andb].
  destruct (map_blocks_ok _ _ (cm_zero_component o sp) [0; 1; 2]) as (z & Ez & Lz & Nz).
  { intros t _. destruct (cm_zero_component_ok sp o t) as (ms & Em & _). eexists. exact Em. }
  rewrite Ez. cbn [Datatypes.orb andb]. cbn [bind]. assert (HT : 0 <= T0 <= 2) by (unfold in_range in Hr; lia).
  assert (N3 : forall t, 0 <= t <= 2 -> exists ms, nth_error z (Z.to_nat t) = Some (cm_sectors_at sp o t, ms) /\ length ms = length (cm_sectors_at sp o t)
    /\ forall q i k x y, nth_error (cm_sectors_at sp o t) q = Some (i, k) -> nth_error sp i = Some x -> nth_error sp k = Some y ->
       exists m, nth_error ms q = Some m /\ rows m = length (snd x) /\ cols m = length (snd y)
       /\ forall u v (a b : four), nth_error (snd x) u = Some a -> nth_error (snd y) v = Some b -> at_ m u v = Num 0).
  { intros t Ht. assert (Hn : nth_error [0; 1; 2] (Z.to_nat t) = Some t).
    { assert (HT3 : t = 0 \/ t = 1 \/ t = 2) by lia. destruct HT3 as [->|[->| ->]]; reflexivity. }
    destruct (Nz _ _ Hn) as (p & Hp & Ep). destruct (cm_zero_component_ok sp o t) as (ms & Em & Hl & Hm). rewrite Em in Ep. injection Ep as <-.
    exists ms. split; [exact Hp|]. split; [exact Hl|exact Hm]. }
  destruct (N3 T0 HT) as (ms0 & Hn0 & _). unfold at_z. rewrite (proj2 (Z.ltb_ge T0 0)) by lia. rewrite Hn0. cbn [get bind].
  assert (Es : cm_sectors_at sp o T0 = cm_sectors sp (o_J0 o) T0 (o_g0 o)).
  { unfold cm_sectors_at. destruct Hr as [Ha Hb]. rewrite (proj2 (Z.leb_le _ _) Ha), (proj2 (Z.leb_le _ _) Hb). reflexivity. }
  destruct (cm_block_list sp o T0 f (fun x y a b => Num (F T0 (cm_labels x) a (cm_labels y) b))) as (ms & E & L & N); [exact Hf|].
  unfold cm_block_of in E. rewrite Es, E. cbn [bind].
  destruct (store_some _ z (Z.to_nat T0) (cm_sectors_at sp o T0, ms) ltac:(cbn in Lz; lia)) as (c & Ec & Lc & Nc & Oc).
  rewrite <- Es, Ec. exists c. split; [reflexivity|]. split; [cbn in Lz; lia|]. intros t Ht. exists (cm_sectors_at sp o t). destruct (Z.eq_dec t T0) as [->|Hne].
  - exists ms. split; [exact Nc|]. split; [apply cm_sectors_at_nodup|]. split; [rewrite Es; exact L|]. split; [intros; apply cm_sectors_at_in|].
    intros q i k x y Hq Hx Hy. rewrite Es in Hq. exact (N q i k x y Hq Hx Hy).
  - destruct (N3 t Ht) as (ms' & Hn' & Lm' & Hm'). exists ms'. split; [rewrite Oc by lia; exact Hn'|]. split; [apply cm_sectors_at_nodup|].
    split; [exact Lm'|]. split; [intros; apply cm_sectors_at_in|]. intros q i k x y Hq Hx Hy. destruct (Hm' q i k x y Hq Hx Hy) as (m & Hm & R1 & R2 & A).
    exists m. split; [exact Hm|]. split; [exact R1|]. split; [exact R2|]. intros u v a b Hu Hv. rewrite (A u v a b) by assumption. rewrite Hz by exact Hne. reflexivity.
Qed.

(** * elements *)
Open Scope R_scope.
Section M1.
Variables (tgamma : R -> R) (quad : list R -> list fl -> num).
Variables (racah1 racah2 : Z -> Z -> Z -> Z -> Z -> Z -> Z -> R) (racah12 : Z -> Z -> Z -> Z -> Z -> Z -> Z -> Z -> Z -> R) (crme : Z -> Z -> Z -> R).
Variables (jhalf : R) (cj1 cj2 : Z -> Z -> R).
Hypotheses (Ht : gamma_fn tgamma) (Hq : quad_ok quad) (H1 : one_spin jhalf racah1 racah2 cj1 cj2) (HA : cross_antisymmetric racah12).
Lemma a_term_ok : forall c k K q L S J T g L' S' J' T' g' Nr lr Nc lc Nr' lr' Nc' lc', (k <> 0)%Z ->
  a_term racah12 crme jhalf c k K q (CLab L' S' J' T' g') lr' lc' (CLab L S J T g) lr lc
  = c * angular racah12 crme k 1 K q (L', S', J', T') (Nr', lr', Nc', lc') (L, S, J, T) (Nr, lr, Nc, lc).
Proof.
  intros c k K q L S J T g L' S' J' T' g' Nr lr Nc lc Nr' lr' Nc' lc' Hk. unfold a_term, angular, harmonic, r12. cbn [c_L c_S c_J c_T c_g].
  rewrite (couples3 lr' k lr), (couples3 lc' 1 lc), (couples3 L' K L), (couples3 S' q S), (proj2 (Z.eqb_neq k 0) Hk). change (1 =? 0)%Z with false. cbv iota.
  rewrite (spin_factors_ok racah1 racah2 racah12 jhalf cj1 cj2 H1).
  destruct (allowed_triangle S' S q), (allowed_triangle lr' lr k), (allowed_triangle lc' lc 1), (allowed_triangle L' L K); cbn [andb]; change (2 * 1)%Z with 2%Z; ring.
Qed.
Lemma a0_term_ok : forall L S J T g L' S' J' T' g' Nr lr Nc lc Nr' lr' Nc',
  a0_term racah2 racah12 jhalf (CLab L' S' J' T' g') lr' (CLab L S J T g) lr = spin_only racah2 racah12 (L', S', J', T') (Nr', lr', Nc', lc) (L, S, J, T) (Nr, lr, Nc, lc).
Proof.
  intros. unfold a0_term, spin_only. cbn [c_L c_S c_J c_T c_g]. rewrite Z.eqb_refl, (spin_factors_ok racah1 racah2 racah12 jhalf cj1 cj2 H1). unfold cross. rewrite (couples3 S' 1 S).
  destruct (allowed_triangle S' S 1), (lr' =? lr)%Z, (L' =? L)%Z; cbn [andb]; ring.
Qed.
Lemma a6_term_ok : forall L S J T g L' S' J' T' g' Nr lr Nc lc Nr' lr' Nc',
  a6_term racah1 racah12 crme jhalf (CLab L' S' J' T' g') lr' lc (CLab L S J T g) lr lc = spin_tensor racah1 racah12 crme (L', S', J', T') (Nr', lr', Nc', lc) (L, S, J, T) (Nr, lr, Nc, lc).
Proof.
  intros. unfold a6_term, spin_tensor, harmonic, r12. cbn [c_L c_S c_J c_T c_g]. rewrite Z.eqb_refl, (spin_factors_ok racah1 racah2 racah12 jhalf cj1 cj2 H1).
  change (2 =? 0)%Z with false. change (0 =? 0)%Z with true. cbv iota. rewrite (couples3 lr' 2 lr), (couples3 L' 2 L). unfold cross. rewrite (couples3 S' 1 S). change (2 * 2)%Z with 4%Z. change (2 * 1)%Z with 2%Z.
  destruct (allowed_triangle S' S 1), (allowed_triangle lr' lr 2), (allowed_triangle L' L 2); cbn [andb]; ring.
Qed.
Lemma radial_f_eq : forall Nmax npts b range k shift lb lk nb nk, shift = shifted k -> (0 <= lb <= Nmax)%Z -> (0 <= lk <= Nmax)%Z -> (Z.of_nat nb <= (Nmax - lb) / 2)%Z -> (Z.of_nat nk <= (Nmax - lk) / 2)%Z ->
  radial_f tgamma quad Nmax npts b range shift lb lk nb nk = integrate quad npts (map (yukawa_fl tgamma b range k lb lk nb nk) (z_grid npts)).
Proof.
  intros Nmax npts b range k shift lb lk nb nk -> Hl Hl' Hn Hn'. unfold radial_f. rewrite !osc_grid_ok by assumption. cbn [bind]. rewrite yukawa_list. reflexivity.
Qed.
Lemma shift0 : 0 = shifted 0.
Proof. unfold shifted. cbn [INR]. field. Qed.
Lemma shift2 : -1 = shifted 2.
Proof. unfold shifted. cbn [INR]. field. Qed.
Lemma angular_zero : forall k K q x Nr' Nc' lc' y Nr Nc lc, (0 < k)%Z -> angular racah12 crme k 1 K q x (Nr', 0%Z, Nc', lc') y (Nr, 0%Z, Nc, lc) = 0.
Proof.
  intros k K q [[[L' S'] J'] T'] Nr' Nc' lc' [[[L S] J] T] Nr Nc lc Hk. unfold angular. assert (E : couplesb 0 k 0 = false).
  { unfold couplesb. apply andb_false_iff. rewrite !Z.leb_gt. lia. }
  rewrite E. reflexivity.
Qed.
Lemma angular_lr : forall k K q x Nr' lr' Nc' lc' y Nr lr Nc lc, allowed_triangle lr' lr k = false -> angular racah12 crme k 1 K q x (Nr', lr', Nc', lc') y (Nr, lr, Nc, lc) = 0.
Proof.
  intros k K q [[[L' S'] J'] T'] Nr' lr' Nc' lc' [[[L S] J] T] Nr lr Nc lc E. unfold angular. rewrite (couples3 lr' k lr), E. reflexivity.
Qed.
Section Element.
Variables (Nmax : Z) (npts : nat) (b range : R).
Hypotheses (Hb : 0 < b) (Hn : (1 < npts)%nat).
Lemma m1_element_ok : forall L S J T g L' S' J' T' g' Nr lr Nc lc Nr' lr' Nc' lc', ho Nr lr -> ho Nc lc -> ho Nr' lr' -> ho Nc' lc' -> (Nr + Nc <= Nmax)%Z -> (Nr' + Nc' <= Nmax)%Z ->
  let x := (L', S', J', T') in let y := (L, S, J, T) in let u := (Nr', lr', Nc', lc') in let v := (Nr, lr, Nc, lc) in
  let f k := Q quad npts (b * sqrt 2) (yukawa k pion_mass_fm range (psi tgamma b lr' (Z.to_nat ((Nr' - lr') / 2))) (psi tgamma b lr (Z.to_nat ((Nr - lr) / 2)))) in
  m1_element tgamma quad racah1 racah2 racah12 crme jhalf Nmax npts b range (CLab L' S' J' T' g') u (CLab L S J T g) v
  = Ok (Num (cm_same u v * (f 0%nat * (spin_tensor racah1 racah12 crme x u y v + 2 * spin_only racah2 racah12 x u y v)
                            + f 1%nat / pion_mass_fm * (spin_tensor racah1 racah12 crme x u y v - spin_only racah2 racah12 x u y v))
     + pion_mass_fm * cm_radius b u v * (f 0%nat * all_terms racah12 crme x u y v + 3 * (f 1%nat / pion_mass_fm + f 2%nat / pion_mass_fm ^ 2) * rank2_terms racah12 crme x u y v))).
Proof.
  intros L S J T g L' S' J' T' g' Nr lr Nc lc Nr' lr' Nc' lc' Hr Hc Hr' Hc' HN HN' x y u v f.
  assert (Hl : (0 <= lr <= Nmax)%Z) by (unfold ho in *; lia). assert (Hl' : (0 <= lr' <= Nmax)%Z) by (unfold ho in *; lia).
  assert (Hnn : (Z.of_nat (Z.to_nat ((Nr - lr) / 2)) <= (Nmax - lr) / 2)%Z).
  { unfold ho in *. rewrite Z2Nat.id by (apply Z.div_pos; lia). apply Z.div_le_mono; lia. }
  assert (Hnn' : (Z.of_nat (Z.to_nat ((Nr' - lr') / 2)) <= (Nmax - lr') / 2)%Z).
  { unfold ho in *. rewrite Z2Nat.id by (apply Z.div_pos; lia). apply Z.div_le_mono; lia. }
  unfold m1_element, u, v. rewrite !Z.quot_div_nonneg by (unfold ho in *; lia). unfold cm_same, cm_radius.
  destruct ((Z.abs (Nc' - Nc) =? 1)%Z && (Z.abs (lc' - lc) =? 1)%Z) eqn:EC.
  - assert (EP : (Nc' =? Nc)%Z && (lc' =? lc)%Z = false). { apply andb_true_iff in EC. rewrite !Z.eqb_eq in EC. apply andb_false_iff. left. apply Z.eqb_neq. lia. }
    rewrite EP. cbn [negb andb]. apply andb_true_iff in EC. rewrite !Z.eqb_eq in EC. destruct EC as [EC1 EC2].
    assert (TC : (lc' =? lc)%Z || allowed_triangle lc' lc 1 = true).
    { apply orb_true_iff. right. unfold allowed_triangle. rewrite andb_true_iff, !Z.leb_le. unfold ho in *. lia. }
    rewrite TC. cbn [negb]. cbv iota. fold u v x y.
    destruct (((lr' =? lr)%Z || allowed_triangle lr' lr 1) || allowed_triangle lr' lr 2 || allowed_triangle lr' lr 3) eqn:TR; cbn [negb].
    2:{ apply orb_false_elim in TR. destruct TR as [TR T3]. apply orb_false_elim in TR. destruct TR as [TR T2]. apply orb_false_elim in TR. destruct TR as [T0 T1].
        unfold all_terms, rank2_terms, u, v. rewrite !(angular_lr 1), !(angular_lr 3) by assumption. do 2 f_equal. ring. }
    rewrite !(a_term_ok _ _ _ _ L S J T g L' S' J' T' g' Nr lr Nc lc Nr' lr' Nc' lc') by lia. fold u v x y.
    rewrite !(radial_f_eq Nmax npts b range 0 0), !(radial_f_eq Nmax npts b range 1 (- (1 / 2))), !(radial_f_eq Nmax npts b range 2 (-1)) by (try assumption; try apply shift0; try apply shift2; reflexivity).
    rewrite (yukawa_integrate tgamma b Ht Hb quad Hq npts range 0) by (try assumption; try lia; right; left; lia). cbn [bind].
    rewrite (yukawa_integrate tgamma b Ht Hb quad Hq npts range 1) by (try assumption; try lia; right; left; lia). cbn [bind].
    assert (OS : one_step lc lc') by (unfold one_step; lia).
    rewrite (coordinate_num Nc' lc' Nc lc 1 Hc OS).
    assert (CASE : (lr' = 0 /\ lr = 0)%Z \/ (0 < lr' + lr)%Z) by lia. destruct CASE as [[-> ->]|Hpos].
    + destruct (yukawa_some tgamma b Ht Hb quad Hq npts range 2 0 0 (Z.to_nat ((Nr' - 0) / 2)) (Z.to_nat ((Nr - 0) / 2)) Hn ltac:(lia) ltac:(lia) ltac:(lia)) as (w & W). rewrite W. cbn [bind nscale]. unfold nadd. cbn [num_map2 oval val].
      unfold all_terms, rank2_terms, u, v. rewrite !angular_zero by lia. do 2 f_equal. ring.
    + rewrite (yukawa_integrate tgamma b Ht Hb quad Hq npts range 2) by (try assumption; try lia; right; right; lia). cbn [bind nscale]. unfold nadd. cbn [num_map2 oval val].
      fold (f 0%nat) (f 1%nat) (f 2%nat). do 2 f_equal. unfold all_terms, rank2_terms. pose proof mass_pos. assert (0 < sqrt 2) by (apply sqrt_lt_R0; lra). unfold k_sqrt_2. field. lra.
  - destruct ((Nc' =? Nc)%Z && (lc' =? lc)%Z) eqn:EP; cbn [negb andb].
    2:{ do 2 f_equal. ring. }
    apply andb_true_iff in EP. rewrite !Z.eqb_eq in EP. destruct EP as [-> ->]. rewrite Z.eqb_refl. change (true || allowed_triangle lc lc 1) with true. cbn [negb]. cbv iota. fold u v x y.
    destruct (((lr' =? lr)%Z || allowed_triangle lr' lr 1) || allowed_triangle lr' lr 2 || allowed_triangle lr' lr 3) eqn:TR; cbn [negb].
    2:{ apply orb_false_elim in TR. destruct TR as [TR T3]. apply orb_false_elim in TR. destruct TR as [TR T2]. apply orb_false_elim in TR. destruct TR as [T0 T1].
        do 2 f_equal. unfold spin_tensor, spin_only, x, y, u, v. rewrite (couples3 lr' 2 lr), T2, T0. cbn [andb]. ring. }
    rewrite (a0_term_ok L S J T g L' S' J' T' g' Nr lr Nc lc Nr' lr' Nc), (a6_term_ok L S J T g L' S' J' T' g' Nr lr Nc lc Nr' lr' Nc). fold u v x y.
    rewrite !(radial_f_eq Nmax npts b range 0 0), !(radial_f_eq Nmax npts b range 1 (- (1 / 2))) by (try assumption; try apply shift0; reflexivity).
    rewrite (yukawa_integrate tgamma b Ht Hb quad Hq npts range 0) by (try assumption; try lia; right; left; lia). cbn [bind].
    rewrite (yukawa_integrate tgamma b Ht Hb quad Hq npts range 1) by (try assumption; try lia; right; left; lia). cbn [bind].
    fold (f 0%nat) (f 1%nat). do 2 f_equal. ring.
Qed.
End Element.
Definition m1_values (b range : R) (npts : nat) : Z -> Z * Z * Z * Z -> four -> Z * Z * Z * Z -> four -> R :=
  m1_rme tgamma quad racah1 racah2 racah12 crme (13803 / 100 / hc) (924 / 10 / hc) (129 / 100) ((938272 + 939565) / 2 / 1000 / hc) b range npts.
Theorem m1_stored : forall Nmax sp o b range npts, cm_space Nmax sp -> o_J0 o = 1%Z -> o_g0 o = 0%Z -> in_range o 1 -> (0 <= o_T0_min o)%Z -> (o_T0_max o <= 2)%Z ->
  0 < b -> (1 < npts)%nat ->
  exists c, nlo_m1 tgamma quad racah1 racah2 racah12 crme jhalf o Nmax sp range b npts = Ok c /\ cm_stores sp o c (m1_values b range npts).
Proof.
  intros Nmax sp o b range npts Hsp HJ Hg Hi H0 HT Hb Hn. unfold nlo_m1. rewrite HJ, Hg.
  destruct Hi as [Hi1 Hi2]. rewrite (proj2 (Z.leb_le _ _) Hi1), (proj2 (Z.leb_le _ _) Hi2). change ((1 =? 1)%Z && (0 =? 0)%Z && true && true) with true. cbn [check bind].
  apply cm_with_component_ok; try assumption; [split; assumption| |].
  2:{ intros t [[[L' S'] J'] T'] [[[a1 a2] a3] a4] [[[L S] J] T] [[[b1 b2] b3] b4] Ht1. unfold m1_values, m1_rme. rewrite (proj2 (Z.eqb_neq _ _) Ht1). reflexivity. }
  intros i k [[L' S' J' T' g'] xs] [[L S J T g] ys] Hik Hx Hy _. apply nth_error_In in Hx. apply nth_error_In in Hy. destruct (Hsp _ Hx) as (Sx & Tx & Hxs). destruct (Hsp _ Hy) as (Sy & Ty & Hys).
  cbn [fst snd c_S c_T] in *. unfold m1_block. cbn [fst snd c_L c_S c_J c_T c_g]. destruct (Z.eqb_spec T' T) as [->|HTT].
  - eexists. split; [reflexivity|]. split; [reflexivity|]. split; [reflexivity|]. intros u v a b0 Ha Hb0. unfold m1_values, m1_rme, cm_labels. cbn [fst snd c_L c_S c_J c_T c_g cm_zero_block mzero at_].
    destruct a as [[[a1 a2] a3] a4], b0 as [[[b1 b2] b3] b4]. change (1 =? 1)%Z with true. cbv iota. f_equal. assert (E : cross racah12 1 T T = 0).
    { unfold cross. destruct (couplesb T 1 T); [|reflexivity]. change (2 * 1)%Z with 2%Z. rewrite HA by exact Ty. ring. }
    rewrite E. ring.
  - rewrite !index01_ok by assumption. cbn [bind].
    assert (EL : forall u v a c, nth_error xs u = Some a -> nth_error ys v = Some c ->
      exists w, m1_element tgamma quad racah1 racah2 racah12 crme jhalf Nmax npts b range (CLab L' S' J' T' g') a (CLab L S J T g) c = Ok (Num w)
      /\ m1_factor * spin_factors racah12 jhalf T' T 1 * w = m1_values b range npts 1 (L', S', J', T') a (L, S, J, T) c).
    { intros u v [[[a1 a2] a3] a4] [[[c1 c2] c3] c4] Ha Hc. apply nth_error_In in Ha. apply nth_error_In in Hc. destruct (Hxs _ _ _ _ Ha) as (A1 & A2 & A3). destruct (Hys _ _ _ _ Hc) as (C1 & C2 & C3).
      eexists. split; [apply m1_element_ok; assumption|]. unfold m1_values, m1_rme. change (1 =? 1)%Z with true. cbv iota zeta. rewrite (spin_factors_ok racah1 racah2 racah12 jhalf cj1 cj2 H1).
      destruct constants_ok as (E1 & E2 & E3 & _). unfold m1_factor. rewrite E2, E3, E1. assert (E4 : nucleon_mass_fm = (938272 + 939565) / 2 / 1000 / hc).
      { unfold nucleon_mass_fm, proton_mass_MeV, neutron_mass_MeV, hbarc, hc. field. }
      rewrite E4. unfold Rdiv. ring. }
    set (el := fun i j => bind (get (nth_error xs i)) (fun bs => bind (get (nth_error ys j)) (fun ks => m1_element tgamma quad racah1 racah2 racah12 crme jhalf Nmax npts b range (CLab L' S' J' T' g') bs (CLab L S J T g) ks))).
    destruct (fill_ok num (Num 0) (length xs) (length ys) el (fun i j => match el i j with Ok w => w | _ => Num 0 end)) as (m & Em & Rm & Cm & Am).
    { intros u v Hu Hv. apply nth_error_Some in Hu. apply nth_error_Some in Hv. destruct (nth_error xs u) as [a|] eqn:Ea; [|congruence]. destruct (nth_error ys v) as [c|] eqn:Ec; [|congruence].
      destruct (EL u v a c Ea Ec) as (w & W & _). unfold el. rewrite Ea, Ec. cbn [get bind]. rewrite W. reflexivity. }
    rewrite Em. cbn [bind]. eexists. split; [reflexivity|]. split; [exact Rm|]. split; [exact Cm|]. intros u v a c Ha Hc. cbn [mat_scale at_].
    assert (Hu : (u < length xs)%nat) by (apply nth_error_Some; congruence). assert (Hv : (v < length ys)%nat) by (apply nth_error_Some; congruence).
    rewrite (Am u v Hu Hv). unfold el. rewrite Ha, Hc. cbn [get bind]. destruct (EL u v a c Ha Hc) as (w & W & V). rewrite W. cbn [nscale]. f_equal. exact V.
Qed.
End M1.
