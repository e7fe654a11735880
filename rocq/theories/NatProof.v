From Coq Require Import List ZArith Reals Bool Sorted Permutation Lia Lra.
From Verif Require Import Base BaseLemmas RMat H2Model MapModel OscModel OscSpec OscProof BlockModel BlockSpec BlockProof BlockFinal
  ObioModel ObioProof ObmModel ObmSpec ObmProof ObmFinal ObmFin2 NatModel NatSpec.
Import ListNotations.
Open Scope R_scope.

(** * Spaces and sectors *)
Lemma forget_labels : forall W (s : wspace W), map fst (forget s) = map fst s.
Proof. intros. unfold forget. rewrite map_map. reflexivity. Qed.
Lemma sorted_nodup : forall l, StronglySorted lt_lab l -> NoDup l.
Proof.
  intros l H. induction H as [|a l Hs IH Hf]; constructor; [|exact IH]. intros Hin. rewrite Forall_forall in Hf. apply Hf in Hin.
  unfold lt_lab in Hin. rewrite lab_ltb_irrefl in Hin. discriminate.
Qed.
Lemma mk_distinct : forall os : list (oinfo R), distinct_labels (forget (mk_wspace os)).
Proof. intros. unfold distinct_labels. rewrite forget_labels. apply sorted_nodup, mk_wspace_labels. Qed.
Lemma ok_distinct : forall s, orbitals_ok s -> distinct_labels (forget s).
Proof. intros s (os & _ & ->). apply mk_distinct. Qed.
Lemma ok_spin : forall s, orbitals_ok s -> Forall (fun x => spin_half (fst x)) (forget s).
Proof.
  intros s (os & H & ->). apply Forall_forall. intros x Hx. assert (Hl : In (fst x) (map fst (forget (mk_wspace os)))) by (apply in_map; exact Hx).
  rewrite forget_labels in Hl. unfold mk_wspace in Hl. rewrite map_map in Hl. cbn in Hl. rewrite map_id in Hl. apply (proj1 (labels_in _ _)) in Hl.
  apply in_map_iff in Hl. destruct Hl as (o & <- & Ho). unfold spin_orbitals in H. rewrite Forall_forall in H. apply H. exact Ho.
Qed.
Lemma ok_info : forall s, orbitals_ok s -> mk_wspace (orbital_info s) = s.
Proof. intros s (os & _ & ->). apply space_from_info. Qed.
Lemma ok_same : forall s t, orbitals_ok s -> orbitals_ok t -> orbital_info s = orbital_info t -> s = t.
Proof. intros s t Hs Ht H. rewrite <- (ok_info s Hs), <- (ok_info t Ht), H. reflexivity. Qed.
Lemma same_orbitals_ok : forall a b, same_orbitals a b = true <-> a = b.
Proof. intros. unfold same_orbitals. destruct (list_eq_dec oinfo_eq_dec a b); split; congruence. Qed.
Lemma same_orbitals_no : forall a b, same_orbitals a b = false <-> a <> b.
Proof. intros. unfold same_orbitals. destruct (list_eq_dec oinfo_eq_dec a b); split; congruence. Qed.

Lemma scalar_labels : forall a b, spin_half a -> spin_half b -> (allowed (0, 0, 0)%Z a b <-> a = b).
Proof.
  intros [s l j] [s' l' j'] (H1 & H2 & H3) (H4 & H5 & H6). unfold allowed, coupled. cbn [ll_sp ll_l ll_2j] in *. split.
  - intros (Hj & [z Hz] & Ht). f_equal; [destruct s, s'; cbn in Ht; congruence|lia|lia].
  - intros [= -> -> ->]. split; [lia|]. split; [exists l'; lia|lia].
Qed.
Lemma sectors_valid : forall bra ket q I K, In (I, K) (sectors_of bra ket q) -> (I < length bra)%nat /\ (K < length ket)%nat.
Proof. intros bra ket [[J0 g0] Tz0] I K H. eapply mk_lsectors_in. exact H. Qed.
Lemma sectors_nodup : forall bra ket q, NoDup (sectors_of bra ket q).
Proof. intros bra ket [[J0 g0] Tz0]. apply mk_lsectors_nodup. Qed.
Lemma label_nth : forall sp I l, label_of sp I = Some l <-> exists x, nth_error sp I = Some x /\ fst x = l.
Proof.
  intros sp I l. unfold label_of. destruct (nth_error sp I) as [x|]; cbn; split.
  - intros [= <-]. eauto.
  - intros (y & [= <-] & <-). reflexivity.
  - discriminate.
  - intros (y & E & _). discriminate.
Qed.
Lemma nth_lt : forall A (l : list A) n, (n < length l)%nat -> exists x, nth_error l n = Some x.
Proof. intros A l n H. destruct (nth_error l n) eqn:E; [eauto|]. apply nth_error_None in E. lia. Qed.
Lemma scalar_in : forall s t I K, orbitals_ok s -> orbitals_ok t ->
  (In (I, K) (sectors_of (forget s) (forget t) (0, 0, 0)%Z) <->
   (I < length (forget s))%nat /\ (K < length (forget t))%nat /\ label_of (forget s) I = label_of (forget t) K).
Proof.
  intros s t I K Hs Ht. pose proof (ok_spin s Hs) as Ss. pose proof (ok_spin t Ht) as St. rewrite Forall_forall in Ss, St. split.
  - intros H. destruct (sectors_valid _ _ _ _ _ H) as [HI HK]. split; [exact HI|]. split; [exact HK|].
    destruct (nth_lt _ _ _ HI) as [x Hx], (nth_lt _ _ _ HK) as [y Hy]. apply (sectors_allowed2 _ _ _ _ _ x y Hx Hy) in H.
    apply scalar_labels in H; [|apply Ss; eapply nth_error_In; exact Hx|apply St; eapply nth_error_In; exact Hy].
    unfold label_of. rewrite Hx, Hy. cbn. f_equal. exact H.
  - intros (HI & HK & HL). destruct (nth_lt _ _ _ HI) as [x Hx], (nth_lt _ _ _ HK) as [y Hy]. apply (sectors_allowed2 _ _ _ _ _ x y Hx Hy).
    apply scalar_labels; [apply Ss; eapply nth_error_In; exact Hx|apply St; eapply nth_error_In; exact Hy|].
    unfold label_of in HL. rewrite Hx, Hy in HL. cbn in HL. congruence.
Qed.
Lemma scalar_sectors_ok : forall s t, orbitals_ok s -> orbitals_ok t -> scalar_sectors (forget s) (forget t) (sectors_of (forget s) (forget t) (0, 0, 0)%Z).
Proof. intros s t Hs Ht A I H. apply scalar_in in H; [|assumption..]. tauto. Qed.

(** * Writing *)
Lemma write_ok_op : forall bra ket s ms, op_ok (forget bra) (forget ket) s ms -> write_ok bra ket s ms = true.
Proof.
  intros bra ket s ms [_ H]. unfold write_ok. induction H as [|x m s ms Hx H IH]; [reflexivity|]. cbn.
  apply andb_true_iff in IH. destruct IH as [E1 E2]. cbn in E2. rewrite E2. destruct Hx as (_ & _ & R & C). rewrite R, C.
  rewrite !Nat.eqb_refl. cbn. rewrite E1. reflexivity.
Qed.
Lemma write_rfile_op : forall f, op_ok (forget (rf_bra f)) (forget (rf_ket f)) (rf_sectors f) (rf_blocks f) -> write_rfile f = Ok f.
Proof. intros f H. unfold write_rfile. rewrite write_ok_op by exact H. reflexivity. Qed.

(** * Composition *)
Theorem compose_refused : forall f1 f2, (rf_radial f1 = false -> radial_compose f1 f2 = Exit)
  /\ (orbital_info (rf_ket f1) <> orbital_info (rf_bra f2) -> radial_compose f1 f2 = Exit).
Proof.
  intros f1 f2. unfold radial_compose. split; intros H.
  - rewrite H. reflexivity.
  - destruct (rf_radial f1); [|reflexivity]. rewrite (proj2 (same_orbitals_no _ _) H). reflexivity.
Qed.
Lemma compose_general : forall f1 f2, rfile_ok f1 -> rfile_ok f2 -> rf_radial f1 = true -> rf_ket f1 = rf_bra f2 ->
  exists f, radial_compose f1 f2 = Ok f /\ rfile_ok f /\ rf_radial f = true /\ rf_q f = (0, 0, 0)%Z /\ rf_bra f = rf_bra f1 /\ rf_ket f = rf_ket f2
  /\ forall I i K k, In (I, K) (rf_sectors f) -> bra_state f I i -> ket_state f K k ->
     value f I i K k = sum_over (rf_ket f1) (fun J j => value f1 I i J j * value f2 J j K k).
Proof.
  intros f1 f2 (B1 & K1 & S1 & O1) (B2 & K2 & S2 & O2) R1 E. unfold radial_compose. rewrite R1. cbn [check bind].
  rewrite E. rewrite (proj2 (same_orbitals_ok _ _) eq_refl). cbn [check bind]. rewrite E in O1.
  destruct (compose_product _ _ _ _ _ _ _ (sectors_of (forget (rf_bra f1)) (forget (rf_ket f2)) (0, 0, 0)%Z) O1 O2 (sectors_nodup _ _ _)) as (r & Er & Or & Hr).
  { intros [I K] H. apply sectors_valid in H. exact H. }
  rewrite Er. cbn [bind]. exists (RFile true (0, 0, 0)%Z (rf_bra f1) (rf_ket f2) (sectors_of (forget (rf_bra f1)) (forget (rf_ket f2)) (0, 0, 0)%Z) r).
  split; [apply write_rfile_op; exact Or|]. cbn. split; [split; [exact B1|split; [exact K2|split; [reflexivity|exact Or]]]|].
  repeat (split; [reflexivity|]). intros I i K k Hin [_ Hi] [_ Hk]. unfold value, sum_over. cbn in *. apply Hr; assumption.
Qed.
Theorem compose_files : forall f1 f2, scalar_file f1 -> scalar_file f2 -> rf_ket f1 = rf_bra f2 ->
  exists f, radial_compose f1 f2 = Ok f /\ scalar_file f /\ rf_bra f = rf_bra f1 /\ rf_ket f = rf_ket f2
  /\ forall I i K k, bra_state f I i -> ket_state f K k ->
     value f I i K k = sum_over (rf_ket f1) (fun J j => value f1 I i J j * value f2 J j K k).
Proof.
  intros f1 f2 (F1 & R1 & Q1) (F2 & R2 & Q2) E. destruct (compose_general f1 f2 F1 F2 R1 E) as (f & Ef & Ff & Rf & Qf & Bf & Kf & Hf).
  exists f. split; [exact Ef|]. split; [split; [exact Ff|split; assumption]|]. split; [exact Bf|]. split; [exact Kf|]. intros I i K k HI HK.
  destruct F1 as (B1 & K1 & S1 & O1), F2 as (B2 & K2 & S2 & O2), Ff as (Bo & Ko & So & Oo). unfold value, sum_over in *.
  apply (entry_product (forget (rf_bra f)) (forget (rf_ket f1)) (forget (rf_ket f)) (rf_sectors f1) (rf_blocks f1) (rf_sectors f2) (rf_blocks f2)).
  - rewrite Bf. exact O1.
  - rewrite E, Kf. exact O2.
  - exact Oo.
  - intros A J C H1 H2. rewrite S1, Q1 in H1. rewrite S2, Q2 in H2. rewrite So, Qf, Bf, Kf. apply scalar_in in H1; [|assumption..].
    apply scalar_in in H2; [|assumption..]. apply scalar_in; [assumption..|]. rewrite E in H1. intuition congruence.
  - intros A a C c Hin Ha Hc. apply Hf; [exact Hin| |]; (split; [|assumption]); rewrite So in Hin; apply sectors_valid in Hin; tauto.
  - exact (proj2 HI).
  - exact (proj2 HK).
Qed.
Lemma delta_sum : forall s f I i, state (forget s) I i -> sum_over s (fun J j => delta I i J j * f J j) = f I i.
Proof.
  intros s f I i H. unfold sum_over. rewrite (ssum_one _ I i); [|exact H|].
  - unfold delta. rewrite !Nat.eqb_refl. cbn. ring.
  - intros J j _ Hne. unfold delta. destruct (Nat.eqb I J) eqn:E1, (Nat.eqb i j) eqn:E2; cbn; try ring.
    apply Nat.eqb_eq in E1. apply Nat.eqb_eq in E2. congruence.
Qed.
Theorem compose_isometry : forall f1 f2 f, scalar_file f1 -> scalar_file f2 -> rf_ket f1 = rf_bra f2 -> isometry f1 -> isometry f2 ->
  radial_compose f1 f2 = Ok f -> isometry f.
Proof.
  intros f1 f2 f F1 F2 E I1 I2 Ef. destruct (compose_files f1 f2 F1 F2 E) as (f' & Ef' & Ff & Bf & Kf & Hf). rewrite Ef in Ef'. injection Ef' as <-.
  intros I i K k HI HK. unfold isometry, sum_over in *. rewrite Bf.
  transitivity (ssum (forget (rf_bra f1)) (fun A a => ssum (forget (rf_ket f1)) (fun J j => ssum (forget (rf_ket f1)) (fun L l =>
      (value f1 A a J j * value f1 A a L l) * (value f2 J j I i * value f2 L l K k))))).
  { apply ssum_ext. intros A a HA. rewrite !Hf by (try assumption; unfold bra_state; rewrite Bf; exact HA).
    rewrite <- ssum_scale_r. apply ssum_ext. intros J j _. rewrite <- ssum_scale. apply ssum_ext. intros L l _. ring. }
  rewrite ssum_swap. transitivity (ssum (forget (rf_ket f1)) (fun J j => value f2 J j I i * value f2 J j K k)).
  2: { rewrite E. apply I2; unfold ket_state in *; rewrite <- Kf; assumption. }
  apply ssum_ext. intros J j HJ. rewrite ssum_swap.
  transitivity (ssum (forget (rf_ket f1)) (fun L l => delta J j L l * (value f2 J j I i * value f2 L l K k))).
  { apply ssum_ext. intros L l HL. rewrite ssum_scale_r. rewrite I1 by assumption. reflexivity. }
  apply (delta_sum (rf_ket f1) (fun L l => value f2 J j I i * value f2 L l K k)). exact HJ.
Qed.

(** * Change of basis *)
Theorem xform_files : forall orbs x o, scalar_file x -> rfile_ok o -> rf_bra o = mk_wspace orbs -> rf_ket o = mk_wspace orbs -> rf_bra x = mk_wspace orbs ->
  exists r, radial_xform orbs x o = Ok r /\ rfile_ok r /\ rf_radial r = rf_radial o /\ rf_q r = rf_q o /\ rf_bra r = rf_ket x /\ rf_ket r = rf_ket x
  /\ forall I i K k, bra_state r I i -> ket_state r K k ->
     value r I i K k = sum_over (rf_bra o) (fun A a => sum_over (rf_ket o) (fun B b => value x A a I i * value o A a B b * value x B b K k)).
Proof.
  intros orbs x o (Fx & Rx & Qx) Fo E1 E2 E3. unfold radial_xform. rewrite E1, E2, Qx, Rx, E3.
  rewrite !(proj2 (same_orbitals_ok _ _) eq_refl). cbn [check bind andb Z.eqb].
  destruct Fx as (Bx & Kx & Sx & Ox), Fo as (Bo & Ko & So & Oo). rewrite E1, E2 in *. rewrite E3 in *. rewrite Qx in Sx.
  set (sp := forget (mk_wspace orbs)) in *. set (tg := forget (rf_ket x)) in *. set (s := sectors_of tg tg (rf_q o)).
  assert (Hsc : scalar_sectors sp tg (rf_sectors x)) by (rewrite Sx; apply scalar_sectors_ok; assumption).
  destruct (similarity_product sp tg (rf_sectors x) (rf_blocks x) (rf_sectors o) (rf_blocks o) s Ox Oo Hsc (ok_distinct _ Bo) (sectors_nodup _ _ _)) as [Hc _].
  { intros [I K] H. apply sectors_valid in H. exact H. }
  destruct Hc as (r & Er & Or & Hr).
  { intros I K A B Hin HA HB LA LB. pose proof (sectors_valid _ _ _ _ _ Hin) as [HI HK]. split; [|split].
    - rewrite So. destruct (nth_lt _ _ _ HI) as [xi Hxi], (nth_lt _ _ _ HK) as [xk Hxk], (nth_lt _ _ _ HA) as [xa Hxa], (nth_lt _ _ _ HB) as [xb Hxb].
      unfold s in Hin. apply (sectors_allowed2 _ _ _ _ _ xi xk Hxi Hxk) in Hin. apply (sectors_allowed2 _ _ _ _ _ xa xb Hxa Hxb).
      unfold label_of in LA, LB. rewrite Hxa, Hxi in LA. rewrite Hxb, Hxk in LB. cbn in LA, LB. injection LA as ->. injection LB as ->. exact Hin.
    - rewrite Sx. apply scalar_in; auto.
    - rewrite Sx. apply scalar_in; auto. }
  rewrite Er. cbn [bind]. exists (RFile (rf_radial o) (rf_q o) (rf_ket x) (rf_ket x) s r).
  split; [apply write_rfile_op; exact Or|]. cbn. split; [split; [exact Kx|split; [exact Kx|split; [reflexivity|exact Or]]]|].
  repeat (split; [reflexivity|]). intros I i K k [HI Hi] [HK Hk]. unfold value, sum_over. cbn [rf_bra rf_ket rf_sectors rf_blocks] in *. fold sp tg in HI, Hi, HK, Hk |- *.
  destruct (in_dec (fun x y : nat * nat => ltac:(repeat decide equality)) (I, K) s) as [Hin|Hnin]; [apply Hr; assumption|].
  rewrite entry_absent by exact Hnin. symmetry. apply ssum_0. intros A a [HA _]. apply ssum_0. intros B b [HB _].
  destruct (in_dec (fun x y : nat * nat => ltac:(repeat decide equality)) (A, I) (rf_sectors x)) as [H1|H1]; [|rewrite (entry_absent _ _ A a I i) by exact H1; ring].
  destruct (in_dec (fun x y : nat * nat => ltac:(repeat decide equality)) (B, K) (rf_sectors x)) as [H2|H2]; [|rewrite (entry_absent _ _ B b K k) by exact H2; ring].
  destruct (in_dec (fun x y : nat * nat => ltac:(repeat decide equality)) (A, B) (rf_sectors o)) as [H3|H3]; [|rewrite (entry_absent _ _ A a B b) by exact H3; ring].
  elim Hnin. apply Hsc in H1. apply Hsc in H2. rewrite So in H3. unfold s.
  destruct (nth_lt _ _ _ HI) as [xi Hxi], (nth_lt _ _ _ HK) as [xk Hxk], (nth_lt _ _ _ HA) as [xa Hxa], (nth_lt _ _ _ HB) as [xb Hxb].
  apply (sectors_allowed2 _ _ _ _ _ xa xb Hxa Hxb) in H3. apply (sectors_allowed2 _ _ _ _ _ xi xk Hxi Hxk).
  unfold label_of in H1, H2. rewrite Hxa, Hxi in H1. rewrite Hxb, Hxk in H2. cbn in H1, H2. injection H1 as <-. injection H2 as <-. exact H3.
Qed.
(** every other input is refused: with a message, or by the assertions of the transformation for J0 or g0 different from 0 *)
Theorem xform_refused : forall orbs x o,
  (orbital_info (rf_bra o) <> orbital_info (rf_ket o) -> radial_xform orbs x o = Exit)
  /\ (orbital_info (mk_wspace orbs) <> orbital_info (rf_ket o) -> radial_xform orbs x o = Exit)
  /\ (rf_radial x = false -> radial_xform orbs x o = Exit)
  /\ (orbital_info (rf_ket o) <> orbital_info (rf_bra x) -> radial_xform orbs x o = Exit)
  /\ (forall J0 g0 Tz0, rf_q x = (J0, g0, Tz0) -> (Tz0 <> 0)%Z -> radial_xform orbs x o = Exit)
  /\ (rf_q x <> (0, 0, 0)%Z -> radial_xform orbs x o = Exit \/ radial_xform orbs x o = AssertFail).
Proof.
  intros orbs x o. unfold radial_xform. destruct (rf_q x) as [[J0 g0] Tz0] eqn:Eq. split; [|split; [|split; [|split; [|split]]]].
  - intros H. rewrite (proj2 (same_orbitals_no _ _) H). reflexivity.
  - intros H. destruct (same_orbitals (orbital_info (rf_bra o)) _); [|reflexivity]. cbn. rewrite (proj2 (same_orbitals_no _ _) H). reflexivity.
  - intros H. do 2 (destruct (same_orbitals _ _); [|reflexivity]). rewrite H. reflexivity.
  - intros H. do 2 (match goal with |- context [same_orbitals ?a ?b] => destruct (same_orbitals a b); [|reflexivity] end). cbn [check bind].
    rewrite (proj2 (same_orbitals_no _ _) H), andb_false_r. reflexivity.
  - intros J g T [= <- <- <-] H. do 2 (match goal with |- context [same_orbitals ?a ?b] => destruct (same_orbitals a b); [|reflexivity] end). cbn [check bind].
    apply Z.eqb_neq in H. rewrite H, andb_false_r. reflexivity.
  - intros H. do 2 (match goal with |- context [same_orbitals ?a ?b] => destruct (same_orbitals a b); [|left; reflexivity] end). cbn [check bind].
    destruct (_ && _ && _); [|left; reflexivity]. right. cbn [check bind]. rewrite similarity_refused by exact H. reflexivity.
Qed.
(** back: with transformations U and V whose product U V is the identity on the original space *)
Theorem xform_back : forall orbs orbs' x y o, scalar_file x -> scalar_file y -> rfile_ok o ->
  rf_bra o = mk_wspace orbs -> rf_ket o = mk_wspace orbs -> rf_bra x = mk_wspace orbs -> rf_ket x = mk_wspace orbs' -> rf_bra y = mk_wspace orbs' -> rf_ket y = mk_wspace orbs ->
  (forall A a B b, state (forget (rf_bra o)) A a -> state (forget (rf_bra o)) B b -> sum_over (rf_ket x) (fun I i => value x A a I i * value y I i B b) = delta A a B b) ->
  exists r r', radial_xform orbs x o = Ok r /\ radial_xform orbs' y r = Ok r' /\ rf_bra r' = rf_bra o /\ rf_ket r' = rf_ket o /\ rf_q r' = rf_q o /\ rf_radial r' = rf_radial o
  /\ forall A a B b, bra_state o A a -> ket_state o B b -> value r' A a B b = value o A a B b.
Proof.
  intros orbs orbs' x y o Fx Fy Fo Eb Ek Exb Exk Eyb Eyk Huv.
  destruct (xform_files orbs x o Fx Fo Eb Ek Exb) as (r & Er & Fr & Rr & Qr & Br & Kr & Hr).
  destruct (xform_files orbs' y r Fy Fr) as (r' & Er' & Fr' & Rr' & Qr' & Br' & Kr' & Hr'); [congruence..|].
  exists r, r'. split; [exact Er|]. split; [exact Er'|]. repeat (split; [congruence|]).
  intros A a B b HA HB. unfold bra_state, ket_state in *. rewrite Ek in HB. rewrite Eb in HA. rewrite Hr' by (unfold bra_state, ket_state; rewrite ?Br', ?Kr', Eyk; assumption).
  unfold sum_over in *. rewrite Br, Kr, Eb, Ek in *.
  set (S' := forget (rf_ket x)) in *. set (S0 := forget (mk_wspace orbs)) in *.
  transitivity (ssum S' (fun I i => ssum S' (fun K k => ssum S0 (fun C c => ssum S0 (fun E e =>
     (value x C c I i * value y I i A a) * (value o C c E e * (value x E e K k * value y K k B b))))))).
  { apply ssum_ext. intros I i HI. apply ssum_ext. intros K k HK. rewrite Hr by assumption. rewrite <- ssum_scale, <- ssum_scale_r.
    apply ssum_ext. intros C c _. rewrite <- ssum_scale, <- ssum_scale_r. apply ssum_ext. intros E e _. ring. }
  transitivity (ssum S0 (fun C c => ssum S0 (fun E e => ssum S' (fun I i => value x C c I i * value y I i A a) * (value o C c E e * ssum S' (fun K k => value x E e K k * value y K k B b))))).
  { transitivity (ssum S' (fun I i => ssum S0 (fun C c => ssum S0 (fun E e => (value x C c I i * value y I i A a) * (value o C c E e * ssum S' (fun K k => value x E e K k * value y K k B b)))))).
    { apply ssum_ext. intros I i _. rewrite ssum_swap. apply ssum_ext. intros C c _. rewrite ssum_swap. apply ssum_ext. intros E e _. rewrite <- !ssum_scale.
      apply ssum_ext. intros K k _. ring. }
    rewrite ssum_swap. apply ssum_ext. intros C c _. rewrite ssum_swap. apply ssum_ext. intros E e _. rewrite <- ssum_scale_r. reflexivity. }
  transitivity (ssum S0 (fun C c => delta A a C c * value o C c B b)); [|apply (delta_sum (mk_wspace orbs) (fun C c => value o C c B b)); exact HA].
  assert (Hd : forall P p Q q, delta P p Q q = delta Q q P p) by (intros; unfold delta; rewrite (Nat.eqb_sym P Q), (Nat.eqb_sym p q); reflexivity).
  apply ssum_ext. intros C c HC. transitivity (ssum S0 (fun E e => delta B b E e * (delta A a C c * value o C c E e))).
  { apply ssum_ext. intros E e HE. rewrite !Huv by assumption. rewrite (Hd C c A a), (Hd E e B b). ring. }
  apply (delta_sum (mk_wspace orbs) (fun E e => delta A a C c * value o C c E e)). exact HB.
Qed.
