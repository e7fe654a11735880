(** Proofs for C169. *)
From Coq Require Import List ZArith Reals Bool Lia Lra Permutation.
From Verif Require Import Base RMat H2Model MapModel OscModel BlockModel WfModel RscModel RscSpec.
From Verif Require JpvProof.
Import ListNotations.
Open Scope Z_scope.
Open Scope outcome_scope.

Definition fac (bra : lspace) (sectors : lsectors) (fp fn : fl) (ix : nat) : fl :=
  match nth_error sectors ix with
  | Some x => match nth_error bra (fst x) with Some b => match ll_sp (fst b) with SP => fp | SN => fn end | None => fp end
  | None => fp
  end.

Lemma scale_loop : forall bra sectors fp fn, (forall x, In x sectors -> (fst x < length bra)%nat) ->
  forall order ms, NoDup order -> (forall ix, In ix order -> (ix < length sectors)%nat) -> length ms = length sectors ->
  exists ms', for_each order (scale_sector bra sectors fp fn) ms = Ok ms' /\ length ms' = length ms
  /\ forall ix m, nth_error ms ix = Some m ->
       (In ix order -> nth_error ms' ix = Some (scale_block (fac bra sectors fp fn ix) m)) /\ (~ In ix order -> nth_error ms' ix = Some m).
Proof.
  intros bra sectors fp fn Hb. induction order as [|o order IH]; intros ms Hn Hi Hl.
  - exists ms. split; [reflexivity|]. split; [reflexivity|]. intros ix m E. split; [intros []|intros _; exact E].
  - inversion Hn as [|a b Hno Hn']; subst. cbn [for_each].
    assert (Ho : (o < length sectors)%nat) by (apply Hi; left; reflexivity).
    destruct (nth_error sectors o) as [x|] eqn:Ex; [|apply nth_error_None in Ex; lia].
    assert (Hx : (fst x < length bra)%nat) by (apply Hb; eapply nth_error_In; exact Ex).
    destruct (nth_error bra (fst x)) as [b|] eqn:Eb; [|apply nth_error_None in Eb; lia].
    destruct (nth_error ms o) as [m|] eqn:Em; [|apply nth_error_None in Em; lia].
    assert (E1 : scale_sector bra sectors fp fn o ms = store ms o (scale_block (fac bra sectors fp fn o) m)).
    { unfold scale_sector, fac. rewrite Ex. cbn [get bind]. rewrite Eb. cbn [get bind]. rewrite Em. cbn [get bind]. destruct (ll_sp (fst b)); reflexivity. }
    rewrite E1. destruct (JpvProof.store_ok ms o (scale_block (fac bra sectors fp fn o) m)) as (ms1 & E2 & L1 & N1); [lia|].
    rewrite E2. cbn [bind]. destruct (IH ms1 Hn') as (ms' & E & L & N); [intros; apply Hi; right; assumption|lia|].
    exists ms'. split; [exact E|]. split; [lia|]. intros ix m' Em'. specialize (N1 ix).
    destruct (Nat.eqb_spec ix o) as [Eo|Ne].
    + rewrite Eo in *. destruct (N o _ N1) as [_ N0]. split; [intros _; rewrite (N0 Hno); congruence|intros H; exfalso; apply H; left; reflexivity].
    + rewrite Em' in N1. destruct (N ix _ N1) as [Na Nb]. split; [intros [H|H]; [congruence|exact (Na H)]|intros H; apply Nb; intros H'; apply H; right; exact H'].
Qed.

Lemma perm_facts : forall n order, Permutation order (seq 0 n) -> NoDup order /\ forall ix, In ix order <-> (ix < n)%nat.
Proof.
  intros n order H. split; [eapply Permutation_NoDup; [apply Permutation_sym; exact H|apply seq_NoDup]|].
  intros ix. split; intros Hi.
  - apply (Permutation_in _ H) in Hi. apply in_seq in Hi. lia.
  - apply (Permutation_in _ (Permutation_sym H)). apply in_seq. lia.
Qed.

(** the factor by which elements are multiplied *)
Lemma factor_value : forall single f ratio, can_scale f -> scale_factor single (rf_type f) ratio (rf_power f) = Ok (single (pow_int ratio (length_power f))).
Proof.
  intros single f ratio (Ht & _ & Hp). unfold scale_factor, length_power. destruct Ht as [-> | ->]; [reflexivity|].
  assert (H : in_int (-1 * rf_power f) = true) by (unfold in_int; apply andb_true_intro; split; apply Z.leb_le; lia).
  rewrite H. replace (-1 * rf_power f) with (- rf_power f) by lia. reflexivity.
Qed.

Lemma scale_result : forall single order p n f, file_ok f -> can_scale f -> Permutation order (seq 0 (length (rf_sectors f))) ->
  exists g, radial_scale single order p n f = Ok g /\ same_operator f g
  /\ forall ix m s, nth_error (rf_blocks f) ix = Some m -> sector_species f ix s ->
       nth_error (rf_blocks g) ix = Some (scale_block (single (pow_int (by_species p n s) (length_power f))) m).
Proof.
  intros single order p n f [Hl Hb] Hc Hp. destruct (perm_facts _ _ Hp) as [Hn Hi].
  unfold radial_scale. destruct Hc as [Ht [Hz Hr]] eqn:Hcc. clear Hcc. assert (Hc' : can_scale f) by (split; [exact Ht|split; [exact Hz|exact Hr]]).
  assert (E0 : (match rf_type f with RO => false | _ => true end) = true) by (destruct Ht as [-> | ->]; reflexivity).
  assert (E1 : (match rf_type f with RG => false | _ => true end) = true) by (destruct Ht as [-> | ->]; reflexivity).
  rewrite E0, E1, Hz. cbn [check bind Z.eqb]. rewrite !(factor_value single f _ Hc'). cbn [bind].
  destruct (scale_loop (rf_bra f) (rf_sectors f) (single (pow_int p (length_power f))) (single (pow_int n (length_power f))) Hb order (rf_blocks f) Hn) as (ms & E & L & N).
  { intros ix H. apply Hi. exact H. } { exact Hl. }
  rewrite E. cbn [bind]. eexists. split; [reflexivity|]. split.
  { unfold same_operator. cbn [rf_type rf_power rf_Tz0 rf_bra rf_ket rf_sectors rf_blocks]. repeat split; try reflexivity; [symmetry; exact Hz|exact L]. }
  cbn [rf_blocks]. intros ix m s Em (x & b & Ex & Eb & Es). destruct (N ix m Em) as [Na _]. rewrite Na.
  - f_equal. f_equal. unfold fac. rewrite Ex, Eb, Es. destruct s; reflexivity.
  - apply Hi. apply nth_error_Some. congruence.
Qed.

(** Each element is multiplied by the ratio of lengths of its species, to the power of the operator, rounded once. *)
Lemma scaled_elements : forall single order p n f, file_ok f -> can_scale f -> Permutation order (seq 0 (length (rf_sectors f))) -> p <> 0%R -> n <> 0%R ->
  exists g, radial_scale single order p n f = Ok g /\ same_operator f g
  /\ forall ix i j s e, element f ix i j e -> sector_species f ix s ->
       element g ix i j (fmul e (single (Fin (powerRZ (by_species p n s) (length_power f))))).
Proof.
  intros single order p n f Hf Hc Hp Hp0 Hn0. destruct (scale_result single order p n f Hf Hc Hp) as (g & E & S & N).
  exists g. split; [exact E|]. split; [exact S|]. intros ix i j s e (m & Em & Hi & Hj & He) Hs.
  exists (scale_block (single (pow_int (by_species p n s) (length_power f))) m). split; [exact (N ix m s Em Hs)|].
  split; [exact Hi|]. split; [exact Hj|]. cbn [scale_block at_]. rewrite He. f_equal. f_equal. unfold pow_int.
  destruct (Req_EM_T (by_species p n s) 0) as [H|H]; [destruct s; cbn in H; contradiction|]. rewrite andb_false_r. reflexivity.
Qed.

(** Files of other types, and of operators that change the charge, are refused; all others are not. *)
Lemma refusals : forall single order p n f, file_ok f -> Permutation order (seq 0 (length (rf_sectors f))) -> -2147483648 < rf_power f <= 2147483647 ->
  (radial_scale single order p n f = Exit <-> rf_type f = RO \/ rf_type f = RG \/ rf_Tz0 f <> 0)
  /\ (rf_type f <> RO /\ rf_type f <> RG /\ rf_Tz0 f = 0 -> exists g, radial_scale single order p n f = Ok g).
Proof.
  intros single order p n f Hf Hp Hr. destruct (rf_type f) eqn:Et.
  3,4: (split; [split; [intros _; tauto|intros _; unfold radial_scale; rewrite Et; reflexivity]|intros (A & B & _); congruence]).
  all: destruct (Z.eq_dec (rf_Tz0 f) 0) as [Ez|Ez].
  2,4: (split; [split; [intros _; tauto|intros _; unfold radial_scale; rewrite Et; cbn [check bind]; apply Z.eqb_neq in Ez; rewrite Ez; reflexivity]|intros (_ & _ & C); congruence]).
  all: assert (Hc : can_scale f) by (split; [rewrite Et; tauto|split; assumption]);
       destruct (scale_result single order p n f Hf Hc Hp) as (g & E & _); rewrite E; split;
       [split; [discriminate|intros [H|[H|H]]; congruence]|intros _; exists g; reflexivity].
Qed.

Lemma element_back : forall f g ix i j e', same_operator f g ->
  (forall ix m s, nth_error (rf_blocks f) ix = Some m -> sector_species f ix s -> exists c, nth_error (rf_blocks g) ix = Some (scale_block c m)) ->
  forall s, sector_species f ix s -> element g ix i j e' -> exists e, element f ix i j e.
Proof.
  intros f g ix i j e' S H s Hs (m' & Em' & Hi & Hj & He).
  destruct (nth_error (rf_blocks f) ix) as [m|] eqn:Em.
  - destruct (H ix m s Em Hs) as [c Hc]. rewrite Em' in Hc. injection Hc as ->. exists (at_ m i j), m. auto.
  - apply nth_error_None in Em. destruct S as (_ & _ & _ & _ & _ & _ & L). assert (ix < length (rf_blocks g))%nat by (apply nth_error_Some; congruence). lia.
Qed.

(** The elements of an operator in oscillator functions of lengths bp and bn become those for the lengths p*bp and n*bn. *)
Lemma scaled_lengths : forall single order p n f bp bn el, exact single -> file_ok f -> can_scale f -> Permutation order (seq 0 (length (rf_sectors f))) ->
  p <> 0%R -> n <> 0%R -> has_lengths bp bn el f ->
  exists g, radial_scale single order p n f = Ok g /\ same_operator f g /\ has_lengths (p * bp) (n * bn) el g.
Proof.
  intros single order p n f bp bn el Hx Hf Hc Hp Hp0 Hn0 Hl. destruct (scale_result single order p n f Hf Hc Hp) as (g & E & S & N).
  exists g. split; [exact E|]. split; [exact S|]. intros ix i j s e' He' Hs'.
  assert (Hs : sector_species f ix s).
  { destruct S as (_ & _ & _ & Sb & _ & Ss & _). destruct Hs' as (x & b & A & B & C). rewrite Ss in A. rewrite Sb in B. exists x, b. auto. }
  destruct (element_back f g ix i j e' S) with (s := s) as [e He]; [intros ix0 m s0 A B; eexists; exact (N _ _ _ A B)|exact Hs|exact He'|].
  assert (Hlp : length_power g = length_power f) by (unfold length_power; destruct S as (-> & -> & _); reflexivity).
  pose proof (Hl ix i j s e He Hs) as Ee. destruct He as (m & Em & Hi & Hj & Ha). destruct He' as (m' & Em' & _ & _ & Ha').
  rewrite (N ix m s Em Hs) in Em'. injection Em' as <-. cbn [scale_block at_] in Ha'. rewrite Ha, Ee, Hx in Ha'. unfold pow_int in Ha'.
  rewrite Hlp. destruct (Req_EM_T (by_species p n s) 0) as [H|H]; [destruct s; cbn in H; contradiction|]. rewrite andb_false_r in Ha'. cbn [fmul] in Ha'.
  rewrite <- Ha'. f_equal. replace (by_species (p * bp) (n * bn) s) with (by_species p n s * by_species bp bn s)%R by (destruct s; reflexivity).
  rewrite powerRZ_mult. ring.
Qed.
