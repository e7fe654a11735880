(** Lemmas for C128 and C129: target orbitals, transformations and one-body operators of h2mixer. *)
From Coq Require Import String List ZArith Reals Bool Lra Lia.
From Verif Require Import Base BaseLemmas RMat H2Model MapModel XformModel SepModel OscModel OscSpec OscProof BlockModel BlockSpec BlockProof BlockFinal
  ObioModel ObioProof ObioFinal ObioMore MixModel MixProof MixFinal ObmModel ObmSpec ObmProof ObmFinal ObmFin2 ObmFin3 ObmFin4 ObmFin5 ObmFin6 NatModel RgModel HmModel HmSpec HmOspec HmProof HmMeans.
Import ListNotations.
Open Scope R_scope.
Open Scope string_scope.
Open Scope outcome_scope.

Lemma orbital_of_state : forall sp I i, state sp I i -> exists a n, orbital_at sp I i a n.
Proof.
  intros sp I i [H1 H2]. unfold sub_dim in H2. destruct (nth_error sp I) as [[a ns]|] eqn:E; [|lia].
  destruct (nth_error ns i) as [n|] eqn:En; [|apply nth_error_None in En; cbn in H2; lia]. exists a, n, ns. auto.
Qed.
Lemma allowed_dec : forall q a b, allowed q a b \/ ~ allowed q a b.
Proof. intros q a b. rewrite <- (sectors_allowed [(a, [0%Z]); (b, [0%Z])] q 0 1 (a, [0%Z]) (b, [0%Z]) eq_refl eq_refl). 
  destruct (in_dec (fun x y : nat * nat => ltac:(decide equality; apply Nat.eq_dec)) (0, 1)%nat (sectors_of [(a, [0%Z]); (b, [0%Z])] [(a, [0%Z]); (b, [0%Z])] q)); auto. Qed.
Lemma described_holds : forall ops id sp q f g s m, assoc ops id = Some (data_of sp q s m) -> tensor_op sp q s m -> elements sp q s m g -> describes sp q f g -> holds ops id sp q f.
Proof.
  intros ops id sp q f g s m E T H D. exists s, m. split; [exact E|]. split; [exact T|]. intros I i K k S1 S2.
  destruct (orbital_of_state _ _ _ S1) as (a & n & O1). destruct (orbital_of_state _ _ _ S2) as (b & n' & O2).
  destruct (H _ _ _ _ _ _ _ _ O1 O2) as [A1 A2]. destruct (D _ _ _ _ _ _ _ _ O1 O2) as [B1 B2]. destruct (allowed_dec q a b); [rewrite A1, B1; auto|rewrite A2, B2; auto].
Qed.
Lemma same_n : forall sp I i k a n n', distinct_n sp -> orbital_at sp I i a n -> orbital_at sp I k a n' -> Nat.eqb i k = (n =? n')%Z.
Proof.
  intros sp I i k a n n' D (ns & E & N) (ns' & E' & N'). rewrite E in E'. injection E' as <-. unfold distinct_n in D. rewrite Forall_forall in D. assert (ND := D _ (nth_error_In _ _ E)). cbn in ND.
  destruct (Nat.eqb_spec i k) as [->|Hne]; destruct (Z.eqb_spec n n') as [->|Hn]; try reflexivity; try congruence.
  exfalso. apply Hne. apply (proj1 (NoDup_nth_error ns) ND); [apply nth_error_Some; congruence|congruence].
Qed.
Lemma scalar_index : forall sp I i K k a n b n', regular sp -> orbital_at sp I i a n -> orbital_at sp K k b n' -> allowed (0, 0, 0)%Z a b -> I = K /\ a = b.
Proof.
  intros sp I i K k a n b n' (R1 & R2 & _) (ns & E & _) (ns' & E' & _) A.
  assert (a = b) as -> by (apply scalar_labels; [exact (space_spin_half _ _ _ _ R1 E)|exact (space_spin_half _ _ _ _ R1 E')|exact A]).
  split; [exact (label_index _ _ _ _ _ _ R2 E E')|reflexivity].
Qed.

Section Ob.
Variable d : disk.
Variable oscillator_orbitals : Z -> list (oinfo R).
Variable spline : spline_me.
Variable crme : Z -> Z -> Z -> Z -> Z -> R.
Variable am_rme : am_type -> Z -> Z -> Z -> Z -> R.
Variable inv_sqrt_4pi : R.
Variable racah : Z -> Z -> Z -> Z -> Z -> Z -> R.
Notation construct := (construct d spline crme am_rme inv_sqrt_4pi racah).
Notation construct_all := (construct_all d spline crme am_rme inv_sqrt_4pi racah).
Notation builtin_op := (builtin_op crme am_rme).
Notation defines := (defines d crme am_rme racah).
Notation stage := (stage d crme am_rme racah).

(** ** builtin operators *)
Lemma builtin_generated : forall id q g sp ops, builtin_op id q g -> regular sp -> assoc ops id = None ->
  exists t order s m, named builtins id = Ok (t, order, q)
  /\ (forall rp, rn_basis rp = BOscillator -> generated_channel spline crme am_rme inv_sqrt_4pi rp id t order q (Some sp) ops = Ok ((id, data_of sp q s m) :: ops))
  /\ tensor_op sp q s m /\ elements sp q s m g.
Proof.
  intros id q g sp ops H R Hno. assert (R' := R). destruct R' as (R1 & R2 & R3 & R4).
  assert (X : forall rp rp' id t order q space, rn_basis rp = rn_basis rp' -> match t with GRadial _ => id = "identity" | _ => True end ->
     generated_channel spline crme am_rme inv_sqrt_4pi rp id t order q (Some space) ops = generated_channel spline crme am_rme inv_sqrt_4pi rp' id t order q (Some space) ops).
  { intros rp rp' id0 t order q0 space E Ht. unfold generated_channel, generate_blocks. destruct (assoc ops id0); [reflexivity|]. destruct t; try rewrite E; try reflexivity. rewrite Ht. reflexivity. }
  assert (Y : exists t order, named builtins id = Ok (t, order, q) /\ match t with GRadial _ => id = "identity" | _ => True end /\
     exists s m, generated_channel spline crme am_rme inv_sqrt_4pi (Run BOscillator 1 sp) id t order q (Some sp) ops = Ok ((id, data_of sp q s m) :: ops)
     /\ tensor_op sp q s m /\ elements sp q s m g).
  { destruct H.
    - exists (GRadial TOther), 0%Z. split; [reflexivity|]. split; [reflexivity|]. destruct (generated_identity spline crme am_rme inv_sqrt_4pi (Run BOscillator 1 sp) (GRadial TOther) 0 (0, 0, 0)%Z ops Hno) as (s & m & E & T & V).
      exists s, m. split; [exact E|]. split; [exact T|]. cbn [rn_space] in *. intros I i K k a n b n' O1 O2. split; intros A.
      + rewrite (V _ _ _ _ _ _ _ _ O1 O2 A). destruct (scalar_index sp I i K k a n b n' R O1 O2 A) as [-> ->]. unfold diagonal. rewrite (same_n sp K i k b n n' R3 O1 O2). reflexivity.
      + destruct O1 as (ns & O1 & _). destruct O2 as (ns' & O2 & _). apply entry_absent. rewrite (proj2 T), (sectors_allowed sp _ I K _ _ O1 O2). exact A.
    - assert (N : id <> "identity") by (destruct H as [H|[H|[H|[]]]]; injection H as <- _; discriminate).
      exists (GAm t), 1%Z. split; [destruct H as [H|[H|[H|[]]]]; injection H as <- <-; reflexivity|]. split; [exact I|].
      destruct (generated_am spline crme am_rme inv_sqrt_4pi (Run BOscillator 1 sp) id t (Some sp) ops N Hno R4 R3) as (s & m & E & T & V). exists s, m. auto.
    - assert (N : id <> "identity") by (destruct H as [H|[H|[H|[]]]]; injection H as <- _; discriminate).
      exists (GAm t), 2%Z. split; [destruct H as [H|[H|[H|[]]]]; injection H as <- <-; reflexivity|]. split; [exact I|].
      destruct (generated_square spline crme am_rme inv_sqrt_4pi (Run BOscillator 1 sp) id t (Some sp) ops N Hno R1 R2) as (s & m & E & T & V). exists s, m. split; [exact E|]. split; [exact T|].
      cbn [channel_space] in *. intros I0 i K k a n b n' O1 O2. destruct (orbital_sub _ _ _ _ _ O2) as [S1 S2]. rewrite (V I0 i K k a n O1 (conj S1 S2)). split; intros A.
      + destruct (scalar_index sp I0 i K k a n b n' R O1 O2 A) as [-> ->]. rewrite Nat.eqb_refl. unfold diagonal. rewrite (same_n sp K i k b n n' R3 O1 O2). reflexivity.
      + destruct (Nat.eqb_spec I0 K) as [->|]; [|reflexivity]. exfalso. apply A. destruct O1 as (ns & O1 & _). destruct O2 as (ns' & O2 & _). rewrite O1 in O2. injection O2 as <- <-.
        apply scalar_self. exact (space_spin_half _ _ _ _ R1 O1).
    - exists GIso, 1%Z. split; [reflexivity|]. split; [exact I|]. destruct (generated_isospin spline crme am_rme inv_sqrt_4pi (Run BOscillator 1 sp) "tz" 1 0 (Some sp) ops ltac:(discriminate) Hno R4 R3) as (s & m & E & T & V). exists s, m. auto.
    - exists GIso, 1%Z. split; [reflexivity|]. split; [exact I|]. destruct (generated_isospin spline crme am_rme inv_sqrt_4pi (Run BOscillator 1 sp) "t+" 1 1 (Some sp) ops ltac:(discriminate) Hno R4 R3) as (s & m & E & T & V). exists s, m. auto.
    - exists GIso, 1%Z. split; [reflexivity|]. split; [exact I|]. destruct (generated_isospin spline crme am_rme inv_sqrt_4pi (Run BOscillator 1 sp) "t-" 1 (-1) (Some sp) ops ltac:(discriminate) Hno R4 R3) as (s & m & E & T & V). exists s, m. auto.
    - assert (N : id <> "identity") by (destruct H as [H|[H|[]]]; injection H as <- _; discriminate).
      exists (GLadder up), 1%Z. split; [destruct H as [H|[H|[]]]; injection H as <- <-; reflexivity|]. split; [exact I|].
      destruct (generated_ladder spline crme am_rme inv_sqrt_4pi (Run BOscillator 1 sp) id up 1 1 1 0 (Some sp) ops N Hno R1 eq_refl) as (s & m & E & T & V). exists s, m. auto. }
  destruct Y as (t & order & Y1 & Y2 & s & m & Y3 & Y4 & Y5). exists t, order, s, m. split; [exact Y1|]. split; [|auto]. intros rp Hrp. rewrite <- Y3. apply X; [exact Hrp|exact Y2].
Qed.

(** ** each channel adds one operator *)
Theorem construct_new : forall tsp xs s ops r, construct tsp xs s ops = Ok r -> exists od, r = (id_of s, od) :: ops /\ assoc ops (id_of s) = None.
Proof.
  intros tsp xs s ops r H. destruct s; cbn [HmModel.construct id_of] in *.
  - unfold h2_input_channel in H. destruct (assoc ops id) eqn:E; [discriminate|]. apply bind_inv in H. destruct H as (f & _ & H). apply bind_inv in H. destruct H as (_ & _ & H).
    unfold add_new in H. rewrite E in H. injection H as <-. eauto.
  - unfold h2_builtin_channel in H. destruct (assoc ops id) eqn:E; [discriminate|]. apply bind_inv in H. destruct H as (sp & _ & H). apply bind_inv in H. destruct H as ([[t order] q] & _ & H).
    unfold generated_channel in H. rewrite E in H. apply bind_inv in H. destruct H as (ms & _ & H). unfold add_new in H. rewrite E in H. injection H as <-. eauto.
  - unfold linear_combination in H. destruct (assoc ops id) eqn:E; [discriminate|]. apply bind_inv in H. destruct H as ([fl od] & _ & H). injection H as <-. eauto.
  - unfold tensor_channel in H. destruct (assoc ops id) eqn:E; [discriminate|]. destruct (assoc _ a); [|discriminate]. destruct (assoc _ b); [|discriminate].
    apply bind_inv in H. destruct H as (_ & _ & H). apply bind_inv in H. destruct H as ([[Ja ga] Ta] & _ & H). apply bind_inv in H. destruct H as ([[Jb gb] Tb] & _ & H).
    apply bind_inv in H. destruct H as (_ & _ & H). apply bind_inv in H. destruct H as (m1 & _ & H). apply bind_inv in H. destruct H as (m2 & _ & H).
    unfold add_new in H. rewrite E in H. injection H as <-. eauto.
  - unfold xform_ob_channel in H. destruct (assoc ops src); [|discriminate]. destruct (assoc xs xf) as [f|]; [|discriminate]. destruct (assoc ops id) eqn:E; [discriminate|].
    apply bind_inv in H. destruct H as (_ & _ & H). apply bind_inv in H. destruct H as (q & _ & H). destruct (of_q f) as [[J0 g0] Tz0]. apply bind_inv in H. destruct H as (ms & _ & H).
    unfold add_new in H. rewrite E in H. injection H as <-. eauto.
Qed.
Lemma construct_snoc : forall tsp xs ss s, construct_all tsp xs (ss ++ [s]) = bind (construct_all tsp xs ss) (construct tsp xs s).
Proof. intros. unfold HmModel.construct_all. rewrite for_each_app. match goal with |- context [bind ?x _] => destruct x end; [|reflexivity..]. cbn [bind for_each]. destruct (construct tsp xs s a); reflexivity. Qed.
Theorem names_once : forall tsp xs ss ops, construct_all tsp xs ss = Ok ops -> map fst ops = rev (map id_of ss) /\ NoDup (map id_of ss).
Proof.
  intros tsp xs ss. induction ss as [|s ss IH] using rev_ind; intros ops H; [injection H as <-; split; [reflexivity|constructor]|].
  rewrite construct_snoc in H. apply bind_inv in H. destruct H as (ops0 & E & H). destruct (IH _ E) as [IH1 IH2]. destruct (construct_new _ _ _ _ _ H) as (od & -> & Hno).
  rewrite map_app, rev_app_distr. cbn [map rev app fst]. rewrite IH1. split; [reflexivity|]. apply nodup_snoc; [exact IH2|].
  apply assoc_none_in in Hno. rewrite IH1 in Hno. intros Hin. apply Hno. rewrite <- in_rev. exact Hin.
Qed.
(** an operator stays as it was made *)
Theorem kept : forall tsp xs s1 s2 ops1 ops2 id o, construct_all tsp xs s1 = Ok ops1 -> construct_all tsp xs (s1 ++ s2) = Ok ops2 -> assoc ops1 id = Some o -> assoc ops2 id = Some o.
Proof.
  intros tsp xs s1 s2. induction s2 as [|s s2 IH] using rev_ind; intros ops1 ops2 id o H1 H2 Ho.
  - rewrite app_nil_r in H2. congruence.
  - rewrite app_assoc, construct_snoc in H2. apply bind_inv in H2. destruct H2 as (ops & E & H2). destruct (construct_new _ _ _ _ _ H2) as (od & -> & Hno).
    assert (A := IH _ _ _ _ H1 E Ho). cbn. destruct (String.eqb_spec id (id_of s)) as [->|]; [congruence|exact A].
Qed.
Lemma holds_cons : forall ops id od id' sp q f, assoc ops id = None -> holds ops id' sp q f -> holds ((id, od) :: ops) id' sp q f.
Proof.
  intros ops id od id' sp q f Hno (s & m & E & H). exists s, m. split; [|exact H]. cbn. destruct (String.eqb_spec id' id) as [->|]; [congruence|exact E].
Qed.
Lemma holds_new : forall ops id sp q s m f, tensor_op sp q s m -> (forall I i K k, state sp I i -> state sp K k -> entry s m I i K k = f I i K k) -> holds ((id, data_of sp q s m) :: ops) id sp q f.
Proof. intros ops id sp q s m f T V. exists s, m. split; [cbn; rewrite String.eqb_refl; reflexivity|auto]. Qed.
Hypothesis racah_zero : forall j' j j'' Ja Jb J, ~ coupled j (2 * J) j' -> racah j' j j'' Ja Jb J = 0.
Theorem construct_ok : forall tsp l xs env ops s sp q f, (forall id, assoc l id = xs id) -> (forall id sp q f, assoc env id = Some (sp, q, f) -> holds ops id sp q f) -> assoc ops (id_of s) = None ->
  defines tsp xs env s (sp, q, f) -> exists r, construct tsp l s ops = Ok r /\ holds r (id_of s) sp q f.
Proof.
  intros tsp l xs env ops s sp q f Hl Henv Hno D. inversion D as [id file q0 f0 sp0 G1 G2 | id file sp0 q0 f0 g G1 G2 G3 G4 | id terms sp0 q0 f0 G1 G2 | id a b J0 scale sp0 Ja ga Ta fa Jb gb Tb fb G1 G2 G3 | id src xf sp0 q0 fo x f0 G1 G2 G3 G4 G5 G6 G7 G8 G9 G10]; subst; cbn [id_of HmModel.construct] in *.
  - destruct G2 as (F1 & F2 & F3 & F4). unfold h2_input_channel. rewrite Hno, G1. cbn [open_file bind]. rewrite F3, q_eqb_refl. cbn [cassert bind]. unfold add_new. rewrite Hno.
    eexists. split; [reflexivity|]. rewrite F2. rewrite <- (proj2 F4). apply holds_new; [exact F4|reflexivity].
  - unfold h2_builtin_channel. rewrite Hno. destruct (builtin_generated id q g sp ops G3 G2 Hno) as (t & order & s & m & B1 & B2 & B3 & B4).
    assert (S : (if String.eqb file "" then Ok tsp else os <- open_file (d_orbitals d file) ;; Ok (forget (mk_wspace os))) = Ok sp).
    { destruct G1 as [[-> ->]|(Hf & os & Ho & ->)]; [reflexivity|]. apply String.eqb_neq in Hf. rewrite Hf, Ho. reflexivity. }
    rewrite S. cbn [bind]. rewrite B1. cbn [bind]. rewrite (B2 (Run BOscillator 1 tsp) eq_refl). eexists. split; [reflexivity|].
    eapply described_holds; [cbn; rewrite String.eqb_refl; reflexivity|exact B3|exact B4|exact G4].
  - destruct (linear_ok ops id sp q terms f0 Hno G1 (fun ic Hic => Henv _ _ _ _ (G2 ic Hic))) as (s & m & E & T & V).
    assert (F : Forall (term_ok on_space ops id sp q) terms).
    { apply Forall_forall. intros ic Hic. destruct (Henv _ _ _ _ (G2 ic Hic)) as (s0 & m0 & E0 & [O0 S0] & _). split; [intros Ei; rewrite Ei in E0; congruence|].
      exists (data_of sp q s0 m0). split; [exact E0|]. split; [reflexivity|]. split; [reflexivity|]. cbn. rewrite S0 in O0. exact (op_sized _ _ _ O0). }
    destruct (linear_combination_ok on_space ops id sp q terms Hno G1 F) as (od & E' & _). unfold on_space in E'. rewrite E'.
    apply linear_agree in E'. rewrite E in E'. injection E' as <-. eexists. split; [reflexivity|]. apply holds_new; assumption.
  - destruct (tensor_channel_ok racah id a b J0 scale ops sp _ _ fa fb Hno (Henv _ _ _ _ G1) (Henv _ _ _ _ G2) G3 racah_zero) as (q' & s & m & E & P & Q & T & V).
    assert (q' = (J0, Z.rem (ga + gb) 2, (Ta + Tb)%Z)) as ->.
    { clear V. destruct (Henv _ _ _ _ G1) as (sa & ma & Ea & _). destruct (Henv _ _ _ _ G2) as (sb & mb & Eb & _).
      assert (Na : a <> id) by congruence. assert (Nb : b <> id) by congruence.
      unfold tensor_channel in E. rewrite Hno, (assoc_cons _ id a _ ops Na), (assoc_cons _ id b _ ops Nb), Ea, Eb in E. cbn [data_of od_space od_q od_sectors od_blocks get bind] in E.
      apply bind_inv in E. destruct E as (_ & _ & E). apply bind_inv in E. destruct E as (_ & _ & E). apply bind_inv in E. destruct E as (m1 & _ & E). apply bind_inv in E. destruct E as (m2 & _ & E).
      unfold add_new in E. rewrite Hno in E. injection E as <- _ _. reflexivity. }
    rewrite E. eexists. split; [reflexivity|]. apply holds_new; [exact T|]. intros I i K k S1 S2. rewrite (V I i K k S1 S2). reflexivity.
  - rewrite <- Hl in G2. destruct (xform_channel_ok id src xf l ops x _ q fo Hno G2 (Henv _ _ _ _ G1) G4 eq_refl G5 G6 G7 G8 G9) as (s & m & E & T & V).
    rewrite E. eexists. split; [reflexivity|]. apply holds_new; [exact T|]. intros I i K k S1 S2. destruct (orbital_of_state _ _ _ S1) as (a & n & O1). destruct (orbital_of_state _ _ _ S2) as (b & n' & O2).
    destruct (G10 _ _ _ _ _ _ _ _ O1 O2) as [B1 B2]. destruct (allowed_dec q a b) as [A|A]; [rewrite (V _ _ _ _ _ _ _ _ O1 O2 A), (B1 A); reflexivity|].
    rewrite (B2 A). destruct O1 as (ns & O1 & _). destruct O2 as (ns' & O2 & _). apply entry_absent. rewrite (proj2 T), (sectors_allowed _ _ I K _ _ O1 O2). exact A.
Qed.
Theorem stage_ok : forall tsp l xs ss env, (forall id, assoc l id = xs id) -> stage tsp xs ss env -> exists ops, construct_all tsp l ss = Ok ops /\ map fst ops = map fst env
  /\ forall id sp q f, assoc env id = Some (sp, q, f) -> holds ops id sp q f.
Proof.
  intros tsp l xs ss env Hl H. induction H as [|ss env s [[sp q] f] H IH Hno D]; [exists []; split; [reflexivity|]; split; [reflexivity|discriminate]|].
  destruct IH as (ops & E & N & Henv).
  assert (Hno' : assoc ops (id_of s) = None).
  { destruct (assoc ops (id_of s)) eqn:Eo; [|reflexivity]. exfalso. apply assoc_none_in in Hno. apply Hno. rewrite <- N. clear - Eo. induction ops as [|[x a] ops IH]; [discriminate|]. cbn in *.
    destruct (String.eqb_spec (id_of s) x); [auto|right; auto]. }
  destruct (construct_ok tsp l xs env ops s sp q f Hl Henv Hno' D) as (r & Er & Hr). destruct (construct_new _ _ _ _ _ Er) as (od & -> & _).
  exists ((id_of s, od) :: ops). rewrite construct_snoc, E. cbn [bind]. split; [exact Er|]. split; [cbn; rewrite N; reflexivity|].
  intros id sp0 q0 f0 Ha. cbn [assoc] in Ha. destruct (String.eqb_spec id (id_of s)) as [->|].
  - injection Ha as <- <- <-. exact Hr.
  - apply holds_cons; [exact Hno'|apply Henv; exact Ha].
Qed.
End Ob.
