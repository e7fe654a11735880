(** Lemmas for C82-C88: channels of obmixer, counterexamples. *)
From Coq Require Import String List ZArith Reals Bool Lra Lia.
From Verif Require Import Base BaseLemmas RMat H2Model MapModel OscModel OscSpec BlockModel BlockSpec BlockProof BlockFinal ObioModel ObioProof ObioFinal
  MixModel MixSpec MixProof MixFinal ObmModel ObmSpec ObmProof ObmFinal ObmFin2 ObmFin3.
Import ListNotations.
Open Scope R_scope.
Open Scope outcome_scope.

Lemma assoc_cons : forall A (id k : string) (x : A) l, k <> id -> assoc ((id, x) :: l) k = assoc l k.
Proof. intros A id k x l H. cbn [assoc]. destruct (String.eqb_spec k id); [congruence|reflexivity]. Qed.
Section Channel.
Variable racah : Z -> Z -> Z -> Z -> Z -> Z -> R.
Theorem tensor_channel_ok : forall id a b J0 scale ops sp qa qb fa fb, assoc ops id = None -> holds ops a sp qa fa -> holds ops b sp qb fb -> coupled (rank qa) (rank qb) J0 ->
  (forall j' j j'' Ja Jb J, ~ coupled j (2 * J) j' -> racah j' j j'' Ja Jb J = 0) ->
  exists q s m, tensor_channel racah id a b J0 scale ops = Ok ((id, data_of sp q s m) :: ops) /\ product_qn qa qb q /\ rank q = J0 /\ tensor_op sp q s m
  /\ forall I i K k, state sp I i -> state sp K k ->
     entry s m I i K k = scale * ssum sp (fun P p => racah (two_j sp I) (two_j sp K) (two_j sp P) (rank qa) (rank qb) J0 * fa I i P p * fb P p K k).
Proof.
  intros id a b J0 scale ops sp [[Ja ga] Ta] [[Jb gb] Tb] fa fb Hid (sa & ma & Ea & Oa & Va) (sb & mb & Eb & Ob & Vb) Hc Hz. cbn [rank fst] in *.
  assert (Na : a <> id) by (intros E; rewrite E in Ea; congruence). assert (Nb : b <> id) by (intros E; rewrite E in Eb; congruence).
  unfold tensor_channel. rewrite Hid, (assoc_cons _ id a _ ops Na), (assoc_cons _ id b _ ops Nb), Ea, Eb. cbn [data_of od_space od_q od_sectors od_blocks get bind]. rewrite lspace_eqb_refl. cbn [cassert bind].
  assert (T : triangle_2 Ja Jb J0 = true) by (unfold triangle_2, coupled in *; rewrite andb_true_iff, !Z.leb_le; exact Hc). rewrite T. cbn [cassert bind].
  set (q := (J0, Z.rem (ga + gb) 2, (Ta + Tb)%Z)).
  assert (Hq : product_qn (Ja, ga, Ta) (Jb, gb, Tb) q).
  { unfold q, product_qn. split; [exact Hc|]. split; [|reflexivity]. exists (Z.quot (ga + gb) 2 + Z.rem (ga + gb) 2)%Z. pose proof (Z.quot_rem' (ga + gb) 2). lia. }
  destruct (tensor_complete racah sp (Ja, ga, Ta) sa ma (Jb, gb, Tb) sb mb q Oa Ob Hq Hz) as (m0 & E0 & [O0 _] & A0). rewrite E0. cbn [bind].
  destruct (update_ok sp (fun _ _ => Ok scale) (fun _ _ => scale) _ m0 O0) as (m & E & O & A); [reflexivity|]. rewrite E. cbn [bind]. unfold add_new. rewrite Hid.
  exists q, (sectors_of sp sp q), m. split; [reflexivity|]. split; [exact Hq|]. split; [reflexivity|]. split; [split; [exact O|reflexivity]|].
  intros I i K k HI HK. rewrite A, (A0 I i K k HI HK). rewrite Rmult_comm. f_equal. apply ssum_ext. intros P p HP. rewrite (Va I i P p HI HP), (Vb P p K k HP HK). reflexivity.
Qed.
Theorem tensor_channel_refused : forall id a b J0 scale ops, assoc ops id = None ->
  (forall sp qa qb fa fb, holds ops a sp qa fa -> holds ops b sp qb fb -> ~ coupled (rank qa) (rank qb) J0 -> tensor_channel racah id a b J0 scale ops = AssertFail)
  /\ (forall sp sp' qa qb fa fb, holds ops a sp qa fa -> holds ops b sp' qb fb -> sp <> sp' -> tensor_channel racah id a b J0 scale ops = AssertFail)
  /\ (a <> id -> assoc ops a = None -> tensor_channel racah id a b J0 scale ops = Exit)
  /\ (b <> id -> assoc ops b = None -> tensor_channel racah id a b J0 scale ops = Exit)
  /\ tensor_channel racah id id id J0 scale ops = UB.
Proof.
  intros id a b J0 scale ops Hid. split; [|split; [|split; [|split]]].
  - intros sp [[Ja ga] Ta] [[Jb gb] Tb] fa fb (sa & ma & Ea & _) (sb & mb & Eb & _) Hc. cbn [rank fst] in *.
    assert (Na : a <> id) by (intros E; rewrite E in Ea; congruence). assert (Nb : b <> id) by (intros E; rewrite E in Eb; congruence).
    unfold tensor_channel. rewrite Hid, (assoc_cons _ id a _ ops Na), (assoc_cons _ id b _ ops Nb), Ea, Eb. cbn [data_of od_space od_q od_sectors od_blocks get bind]. rewrite lspace_eqb_refl. cbn [cassert bind].
    destruct (triangle_2 Ja Jb J0) eqn:T; [|reflexivity]. elim Hc. unfold triangle_2, coupled in *. rewrite andb_true_iff, !Z.leb_le in T. exact T.
  - intros sp sp' qa qb fa fb (sa & ma & Ea & _) (sb & mb & Eb & _) Hne.
    assert (Na : a <> id) by (intros E; rewrite E in Ea; congruence). assert (Nb : b <> id) by (intros E; rewrite E in Eb; congruence).
    unfold tensor_channel. rewrite Hid, (assoc_cons _ id a _ ops Na), (assoc_cons _ id b _ ops Nb), Ea, Eb. cbn [data_of od_space]. rewrite lspace_eqb_ne by exact Hne. reflexivity.
  - intros Na Ha. unfold tensor_channel. rewrite Hid, (assoc_cons _ id a _ ops Na), Ha. reflexivity.
  - intros Nb Hb. unfold tensor_channel. rewrite Hid, (assoc_cons _ id b _ ops Nb), Hb. destruct (assoc ((id, ob_default) :: ops) a); reflexivity.
  - unfold tensor_channel. rewrite Hid. cbn [assoc]. rewrite String.eqb_refl. cbn [ob_default od_space]. rewrite lspace_eqb_refl. reflexivity.
Qed.
End Channel.

(** ** counterexamples *)
Ltac small := repeat (constructor; [cbn; intuition lia|]); constructor.
Definition p0 : llabel := LL SP 0 1.
Definition n0 : llabel := LL SN 0 1.
Lemma spin_half_0 : forall s, spin_half (LL s 0 1).
Proof. intros s. unfold spin_half. cbn. lia. Qed.
Lemma two_space_ok : forall A B, NoDup A -> NoDup B -> Forall (fun n => (0 <= n)%Z) A -> Forall (fun n => (0 <= n)%Z) B ->
  orbital_space [(p0, A); (n0, B)] /\ distinct_labels [(p0, A); (n0, B)] /\ distinct_n [(p0, A); (n0, B)].
Proof.
  intros A B HA HB FA FB. split; [|split].
  - constructor; [split; [apply spin_half_0|exact FA]|]. constructor; [split; [apply spin_half_0|exact FB]|constructor].
  - unfold distinct_labels. cbn. constructor; [intros [E|[]]; discriminate|]. constructor; [intros []|constructor].
  - constructor; [exact HA|]. constructor; [exact HB|constructor].
Qed.
Theorem isospin_index_refuted : exists sp r, orbital_space sp /\ distinct_labels sp /\ distinct_n sp
  /\ isospin sp (0, 0, 1)%Z (sectors_of sp sp (0, 0, 1)%Z) = Ok r
  /\ orbital_at sp 0 0 (LL SP 0 1) 0 /\ orbital_at sp 1 0 (LL SN 0 1) 1 /\ entry (sectors_of sp sp (0, 0, 1)%Z) r 0 0 1 0 = 1.
Proof.
  exists [(p0, [0%Z]); (n0, [1%Z])]. destruct (isospin_blocks [(p0, [0%Z]); (n0, [1%Z])] 1) as (r & E & _ & A). exists r.
  destruct (two_space_ok [0%Z] [1%Z] ltac:(small) ltac:(small) ltac:(small) ltac:(small)) as (H1 & H2 & H3). split; [exact H1|]. split; [exact H2|]. split; [exact H3|]. split; [exact E|].
  assert (P : orbital_at [(p0, [0%Z]); (n0, [1%Z])] 0 0 p0 0) by (exists [0%Z]; split; reflexivity). assert (N : orbital_at [(p0, [0%Z]); (n0, [1%Z])] 1 0 n0 1) by (exists [1%Z]; split; reflexivity).
  split; [exact P|]. split; [exact N|]. rewrite (proj1 (A _ _ _ _ _ _ _ _ P N)); [reflexivity|]. unfold allowed, coupled. cbn. split; [lia|]. split; [exists 0%Z; reflexivity|reflexivity].
Qed.
Theorem isospin_missing_refuted : exists sp r, orbital_space sp /\ distinct_labels sp /\ distinct_n sp
  /\ isospin sp (0, 0, 1)%Z (sectors_of sp sp (0, 0, 1)%Z) = Ok r
  /\ orbital_at sp 0 1 (LL SP 0 1) 1 /\ orbital_at sp 1 0 (LL SN 0 1) 1 /\ entry (sectors_of sp sp (0, 0, 1)%Z) r 0 1 1 0 = 0.
Proof.
  exists [(p0, [0; 1]%Z); (n0, [1%Z])]. destruct (isospin_blocks [(p0, [0; 1]%Z); (n0, [1%Z])] 1) as (r & E & _ & A). exists r.
  destruct (two_space_ok [0; 1]%Z [1%Z] ltac:(small) ltac:(small) ltac:(small) ltac:(small)) as (H1 & H2 & H3). split; [exact H1|]. split; [exact H2|]. split; [exact H3|]. split; [exact E|].
  assert (P : orbital_at [(p0, [0; 1]%Z); (n0, [1%Z])] 0 1 p0 1) by (exists [0; 1]%Z; split; reflexivity). assert (N : orbital_at [(p0, [0; 1]%Z); (n0, [1%Z])] 1 0 n0 1) by (exists [1%Z]; split; reflexivity).
  split; [exact P|]. split; [exact N|]. rewrite (proj1 (A _ _ _ _ _ _ _ _ P N)); [reflexivity|]. unfold allowed, coupled. cbn. split; [lia|]. split; [exists 0%Z; reflexivity|reflexivity].
Qed.
Theorem am_index_refuted : forall am_rme t, exists sp r, orbital_space sp /\ distinct_labels sp /\ distinct_n sp
  /\ angular_momentum am_rme t sp (1, 0, 0)%Z (sectors_of sp sp (1, 0, 0)%Z) = Ok r
  /\ orbital_at sp 0 0 (LL SP 1 1) 0 /\ orbital_at sp 1 0 (LL SP 1 3) 1 /\ entry (sectors_of sp sp (1, 0, 0)%Z) r 0 0 1 0 = am_rme t 1%Z 1%Z 1%Z 3%Z.
Proof.
  intros am_rme t. set (sp := [(LL SP 1 1, [0%Z]); (LL SP 1 3, [1%Z])]). exists sp.
  destruct (eye_blocks sp (1, 0, 0)%Z (fun b k => am_rme t (ll_l b) (ll_2j b) (ll_l k) (ll_2j k))) as (r & E & _ & A). exists r.
  split; [repeat (constructor; [split; [unfold spin_half; cbn; lia|constructor; [lia|constructor]]|]); constructor|].
  split; [unfold distinct_labels; cbn; constructor; [intros [X|[]]; discriminate|constructor; [intros []|constructor]]|].
  split; [repeat (constructor; [constructor; [intros []|constructor]|]); constructor|]. split; [exact E|].
  assert (P : orbital_at sp 0 0 (LL SP 1 1) 0) by (exists [0%Z]; split; reflexivity). assert (N : orbital_at sp 1 0 (LL SP 1 3) 1) by (exists [1%Z]; split; reflexivity).
  split; [exact P|]. split; [exact N|]. rewrite (proj1 (A _ _ _ _ _ _ _ _ P N)); [reflexivity|]. unfold allowed, coupled. cbn. split; [lia|]. split; [exists 1%Z; reflexivity|reflexivity].
Qed.
(** the one-orbital space *)
Definition one : lspace := [(p0, [0%Z])].
Lemma one_at : forall I i a n, orbital_at one I i a n -> I = O /\ i = O /\ a = p0 /\ n = 0%Z.
Proof.
  intros [|I] i a n (ns & E & E'); [|destruct I; discriminate]. cbn in E. injection E as <- <-. destruct i as [|i]; [|destruct i; discriminate]. cbn in E'. injection E' as <-. auto.
Qed.
Lemma one_00 : orbital_at one 0 0 p0 0.
Proof. exists [0%Z]. split; reflexivity. Qed.
Lemma sqr_00 : exists x, coordinate_sqr 0 0 0 0 1 = Num x /\ x = 3 / 2.
Proof. eexists. split; [reflexivity|]. lra. Qed.
Theorem solid_normalisation_refuted : forall spline crme am_rme inv_sqrt_4pi, inv_sqrt_4pi <> 0 -> crme 0%Z 1%Z 0%Z 1%Z 0%Z <> 0 ->
  exists rp id s m x, generated_channel spline crme am_rme inv_sqrt_4pi rp id (GRadial TR) 2 (0, 0, 0)%Z None [] = Ok [(id, data_of (rn_space rp) (0, 0, 0)%Z s m)]
  /\ radial_value spline (rn_basis rp) TR 2 0 0 0 0 0 0 x /\ orbital_at (rn_space rp) 0 0 (LL SP 0 1) 0
  /\ entry s m 0 0 0 0 <> length_power TR 2 (rn_length rp) * (sqrt (IZR (2 * 0 + 1)) * inv_sqrt_4pi) * x * crme 0%Z 1%Z 0%Z 1%Z 0%Z.
Proof.
  intros spline crme am_rme inv Hinv Hc. destruct sqr_00 as (x & Ex & Vx).
  assert (V0 : radial_value spline BOscillator TR 2 0 0 0 0 0 0 x) by (unfold radial_value; change (radial_element spline BOscillator (is_TK TR) 2 0 0 0 0 0 0) with (@Ok num (coordinate_sqr 0 0 0 0 1)); rewrite Ex; reflexivity).
  exists (Run BOscillator 1 one), "q"%string.
  destruct (generated_solid spline crme am_rme inv (Run BOscillator 1 one) "q" TR 2 0 0 0 [] (fun _ _ _ _ => x)) as (s & m & E & _ & A); [discriminate|reflexivity| |].
  { intros I i K k a n b n' H1 H2 _. cbn [rn_space] in *. apply one_at in H1, H2. destruct H1 as (_ & _ & -> & ->), H2 as (_ & _ & -> & ->). exact V0. }
  exists s, m, x. split; [exact E|]. split; [exact V0|]. split; [exact one_00|].
  rewrite (proj1 (A 0%nat 0%nat 0%nat 0%nat p0 0%Z p0 0%Z one_00 one_00)); [|exact (scalar_self p0 (spin_half_0 SP))].
  cbn [assoc kinematic String.eqb Ascii.eqb Bool.eqb rn_length p0 ll_l ll_2j]. change (2 * 2 + 1)%Z with 5%Z. change (2 * 0 + 1)%Z with 1%Z. rewrite sqrt_1. unfold length_power. cbn [powerRZ Pos.to_nat Pos.iter_op]. subst x.
  intros H. apply Hc. apply (Rmult_eq_reg_l (inv * (sqrt 5 - 1))); [rewrite pow1 in H; lra|].
  apply Rmult_integral_contrapositive_currified; [exact Hinv|]. assert (sqrt 4 < sqrt 5) by (apply sqrt_lt_1; lra). replace 4 with (2 * 2) in H0 by ring. rewrite sqrt_square in H0 by lra. lra.
Qed.

(** "identity" and "r" as names of other operators *)
Theorem name_identity_refuted : forall spline crme am_rme inv_sqrt_4pi, exists rp s m x,
  generated_channel spline crme am_rme inv_sqrt_4pi rp "identity" (GRadial TR) 2 (0, 0, 0)%Z None [] = Ok [("identity"%string, data_of (rn_space rp) (0, 0, 0)%Z s m)]
  /\ radial_value spline (rn_basis rp) TR 2 0 0 0 0 0 0 x /\ orbital_at (rn_space rp) 0 0 (LL SP 0 1) 0 /\ entry s m 0 0 0 0 = 1 /\ x = 3 / 2.
Proof.
  intros spline crme am_rme inv. exists (Run BOscillator 1 one). destruct (generated_identity spline crme am_rme inv (Run BOscillator 1 one) (GRadial TR) 2 (0, 0, 0)%Z [] eq_refl) as (s & m & E & _ & A).
  destruct sqr_00 as (x & Ex & Vx). exists s, m, x. split; [exact E|].
  split; [unfold radial_value; cbn [rn_basis]; change (radial_element spline BOscillator (is_TK TR) 2 0 0 0 0 0 0) with (@Ok num (coordinate_sqr 0 0 0 0 1)); rewrite Ex; reflexivity|].
  split; [exact one_00|]. split; [|exact Vx]. exact (A 0%nat 0%nat 0%nat 0%nat p0 0%Z p0 0%Z one_00 one_00 (scalar_self p0 (spin_half_0 SP))).
Qed.
Theorem kinematic_ids : forall id, (exists x, assoc kinematic id = Some x) <-> (id = "identity" \/ id = "r" \/ id = "ik" \/ id = "r.r" \/ id = "ik.ik")%string.
Proof.
  intros id. unfold kinematic. cbn [assoc]. split.
  - intros [x H]. repeat match type of H with context [String.eqb id ?n] => destruct (String.eqb_spec id n); [subst; tauto|] end. discriminate.
  - intros [->|[->|[->|[->| ->]]]]; cbn; eauto.
Qed.
(** spaces that differ: the first two terms have one sector each, of the same dimensions *)
Definition one_op (a : llabel) (x : R) : obdata := data_of [(a, [0%Z])] (0, 0, 0)%Z [(0%nat, 0%nat)] [Mat 1 1 (fun _ _ => x)].
Lemma one_op_holds : forall ops id a x, spin_half a -> assoc ops id = Some (one_op a x) -> holds ops id [(a, [0%Z])] (0, 0, 0)%Z (fun _ _ _ _ => x).
Proof.
  intros ops id a x Ha E. exists [(0%nat, 0%nat)], [Mat 1 1 (fun _ _ => x)]. split; [exact E|].
  assert (S : [(0%nat, 0%nat)] = sectors_of [(a, [0%Z])] [(a, [0%Z])] (0, 0, 0)%Z).
  { unfold sectors_of, mk_lsectors. cbn [length seq list_prod map app filter nth_error fst snd]. rewrite (proj2 (selection_allowed 0 0 0 a a) (scalar_self a Ha)). reflexivity. }
  split; [split; [|exact S]|].
  - split; [constructor; [intros []|constructor]|]. constructor; [cbn; auto|constructor].
  - intros [|I] i [|K] k [HI _] [HK _]; cbn in *; try lia. reflexivity.
Qed.
Theorem linear_spaces_refuted : exists ops id co od, linear_channel id co ops = Ok ((id, od) :: ops)
  /\ holds ops "a" [(LL SP 0 1, [0%Z])] (0, 0, 0)%Z (fun _ _ _ _ => 3) /\ holds ops "b" [(LL SN 1 3, [0%Z])] (0, 0, 0)%Z (fun _ _ _ _ => 4)
  /\ co = [("a"%string, 1); ("b"%string, 1)] /\ od_space od = [(LL SP 0 1, [0%Z])] /\ entry (od_sectors od) (od_blocks od) 0 0 0 0 = 7.
Proof.
  exists [("a"%string, one_op (LL SP 0 1) 3); ("b"%string, one_op (LL SN 1 3) 4)], "c"%string, [("a"%string, 1); ("b"%string, 1)]. eexists.
  split; [vm_compute; reflexivity|]. split; [apply one_op_holds; [apply spin_half_0|reflexivity]|]. split; [apply one_op_holds; [unfold spin_half; cbn; lia|reflexivity]|].
  split; [reflexivity|]. split; [reflexivity|]. cbn. lra.
Qed.
