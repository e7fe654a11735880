(** Proofs about the isospin components of relative operators. *)
From Coq Require Import List ZArith Reals Bool Lia Lra.
From Verif Require Import Base BaseLemmas RMat OscModel OscFinal BlockModel BlockProof MoshModel JpvModel JpvSpec JpvProof IsoModel IsoSpec IsoProof.
Import ListNotations.
Open Scope Z_scope.
Open Scope outcome_scope.

Definition cadds (sp : rspace) (ss : list lsectors) (w : nat -> nat -> nat -> nat -> R) (body : components -> outcome components) : Prop :=
  forall c, comps_ok sp ss c -> exists c', body c = Ok c' /\ comps_ok sp ss c'
  /\ forall T0 s q x y, nth_error ss T0 = Some s -> in_sector sp s q x y -> cent c' T0 q x y = (cent c T0 q x y + w T0 q x y)%R.
Lemma cadds_each : forall {A} sp ss (w : A -> nat -> nat -> nat -> nat -> R) body (l : list A), (forall a, In a l -> cadds sp ss (w a) (body a)) ->
  cadds sp ss (fun T0 q x y => lsum l (fun a => w a T0 q x y)) (for_each l body).
Proof.
  intros A sp ss w body l. induction l as [|a l IH]; intros H c Hc; cbn [for_each lsum].
  - exists c. split; [reflexivity|]. split; [exact Hc|]. intros. ring.
  - destruct (H a (or_introl eq_refl) c Hc) as (c1 & E1 & H1 & A1). rewrite E1. cbn [bind].
    destruct (IH (fun b Hb => H b (or_intror Hb)) c1 H1) as (c2 & E2 & H2 & A2). exists c2. split; [exact E2|]. split; [exact H2|].
    intros T0 s q x y Hs Hin. rewrite (A2 T0 s), (A1 T0 s) by assumption. ring.
Qed.
Lemma cadds_ext : forall sp ss w w' body, cadds sp ss w body -> (forall T0 s q x y, nth_error ss T0 = Some s -> in_sector sp s q x y -> w T0 q x y = w' T0 q x y) -> cadds sp ss w' body.
Proof.
  intros sp ss w w' body H E c Hc. destruct (H c Hc) as (c1 & E1 & H1 & A1). exists c1. split; [exact E1|]. split; [exact H1|].
  intros T0 s q x y Hs Hin. rewrite <- (E T0 s) by assumption. eauto.
Qed.
Lemma cadds_none : forall sp ss, cadds sp ss (fun _ _ _ _ => 0%R) (fun c => Ok c).
Proof. intros sp ss c Hc. exists c. split; [reflexivity|]. split; [exact Hc|]. intros. ring. Qed.
Lemma add_to_adds : forall sp ss T0 s t b k m, nth_error ss T0 = Some s -> nth_error s t = Some (b, k) -> rows m = rdim sp b -> cols m = rdim sp k ->
  cadds sp ss (fun T0' q x y => if Nat.eqb T0' T0 && Nat.eqb q t then at_ m x y else 0%R) (add_to T0 t m).
Proof.
  intros sp ss T0 s t b k m Hs Ht Rm Cm c Hc. unfold add_to. destruct (Forall2_nth _ _ _ _ _ Hc Hs) as ([s' ms] & Ec & Es & Hms). cbn [fst snd] in Es, Hms. subst s'.
  rewrite Ec. cbn [get bind]. destruct (Forall2_nth _ _ _ _ _ Hms Ht) as (m0 & Em & R0 & C0). cbn [fst snd] in R0, C0. rewrite Em. cbn [get bind].
  unfold madd_to. rewrite R0, C0, Rm, Cm, !Nat.eqb_refl. cbn [andb cassert bind].
  set (m1 := Mat _ _ _). destruct (store_ok ms t m1) as (ms1 & Es1 & El1 & En1); [apply nth_error_Some; congruence|]. rewrite Es1. cbn [bind].
  destruct (store_ok c T0 (s, ms1)) as (c1 & Ec1 & Elc & Enc); [apply nth_error_Some; congruence|]. exists c1. split; [exact Ec1|]. split.
  - apply Forall2_intro; [rewrite Elc; apply (Forall2_len _ _ _ Hc)|]. intros i si p Hi Hp. rewrite Enc in Hp. destruct (Nat.eqb_spec i T0) as [->|].
    + injection Hp as <-. cbn [fst snd]. pose proof (eq_trans (eq_sym Hi) Hs) as Hsi. injection Hsi as ->. split; [reflexivity|].
      apply Forall2_intro; [rewrite El1; apply (Forall2_len _ _ _ Hms)|]. intros j xj mj Hj Hmj. rewrite En1 in Hmj. destruct (Nat.eqb_spec j t) as [->|].
      * injection Hmj as <-. rewrite Ht in Hj. injection Hj as <-. cbn. split; congruence.
      * destruct (Forall2_nth _ _ _ _ _ Hms Hj) as (mj' & Ej & Hd). rewrite Ej in Hmj. injection Hmj as <-. exact Hd.
    + destruct (Forall2_nth _ _ _ _ _ Hc Hi) as (p' & Ep & Hp'). rewrite Ep in Hp. injection Hp as <-. exact Hp'.
  - intros T0' s' q x y Hs' Hin. unfold cent. rewrite Enc. destruct (Nat.eqb_spec T0' T0) as [->|]; cbn [andb]; [|ring].
    rewrite Ec. unfold entry_of. rewrite En1. destruct (Nat.eqb_spec q t) as [->|]; [|ring]. rewrite Em. unfold m1. cbn [at_]. ring.
Qed.
(** weight of a species in component T0 of a sector between isospins *)
Definition weight (Tb Tk : Z) (species T0 : nat) : R :=
  if negb (Tb =? Tk) then 0%R else if Tk =? 0 then (if Nat.eqb species 2 && Nat.eqb T0 0 then 1%R else 0%R) else if Tk =? 1 then tz_to_t T0 species else 0%R.
Definition rT (sp : rspace) (i : nat) : Z := match nth_error sp i with Some x => r_T x | None => 0 end.
Definition contribution (sp : rspace) (ss : list lsectors) (s0 : lsectors) (species : nat) (input : blocks R) (ix T0 q x y : nat) : R :=
  match nth_error s0 ix, nth_error ss T0 with
  | Some p, Some s => match nth_error s q with
                      | Some p' => if sector_eqb p p' then (weight (rT sp (fst p)) (rT sp (snd p)) species T0 * entry_of input ix x y)%R else 0%R
                      | None => 0%R end
  | _, _ => 0%R end.
Lemma sector_eqb_refl : forall p, sector_eqb p p = true.
Proof. intros p. apply sector_eqb_ok. reflexivity. Qed.
Lemma nodup_nth : forall {A} (l : list A) i j x, NoDup l -> nth_error l i = Some x -> nth_error l j = Some x -> i = j.
Proof. intros A l i j x Hn Hi Hj. apply (NoDup_nth_error l); [exact Hn| |congruence]. apply nth_error_Some. congruence. Qed.
Lemma three : forall {A} (l : list A) i, length l = 3%nat -> (i < 3)%nat -> exists x, nth_error l i = Some x.
Proof. intros A l i Hl Hi. destruct (nth_error l i) eqn:E; [eauto|]. apply nth_error_None in E. lia. Qed.
Lemma accumulate_sector_adds : forall sp ss s0 species input ix, rsectors_ok sp ss -> nth_error ss 0 = Some s0 -> rblocks_ok sp s0 input -> (ix < length s0)%nat ->
  cadds sp ss (contribution sp ss s0 species input ix) (accumulate_sector sp species s0 input ix).
Proof.
  intros sp ss s0 species input ix (H3 & Hnd & Hin1 & Hbnd) Hs0 Hinput Hix c Hc.
  destruct (nth_error s0 ix) as [[b k]|] eqn:Eix; [|apply nth_error_None in Eix; lia]. destruct (Forall2_nth _ _ _ _ _ Hinput Eix) as (m & Em & Rm & Cm). cbn [fst snd] in Rm, Cm.
  unfold accumulate_sector. rewrite Eix, Em. cbn [get bind fst snd].
  destruct (Hbnd s0 b k (nth_error_In _ _ Hs0) (nth_error_In _ _ Eix)) as [Hb Hk].
  destruct (nth_error sp b) as [xb|] eqn:Eb; [|apply nth_error_None in Eb; lia]. destruct (nth_error sp k) as [xk|] eqn:Ek; [|apply nth_error_None in Ek; lia]. cbn [get bind].
  assert (Hcon : forall T0 s q x y, nth_error ss T0 = Some s -> in_sector sp s q x y -> contribution sp ss s0 species input ix T0 q x y =
     match look_up_sector s b k with Some t => if Nat.eqb q t then (weight (r_T xb) (r_T xk) species T0 * at_ m x y)%R else 0%R | None => 0%R end).
  { intros T0 s q x y Hs (b' & k' & Hq & _). unfold contribution. rewrite Eix, Hs, Hq. unfold rT. cbn [fst snd]. rewrite Eb, Ek. unfold entry_of. rewrite Em.
    assert (Hns : NoDup s) by (rewrite Forall_forall in Hnd; apply Hnd; eapply nth_error_In; exact Hs).
    destruct (look_up_sector s b k) as [t|] eqn:El.
    - apply look_up_some in El. destruct (Nat.eqb_spec q t) as [->|Hne].
      + rewrite El in Hq. injection Hq as <- <-. rewrite sector_eqb_refl. reflexivity.
      + destruct (sector_eqb (b, k) (b', k')) eqn:Eq; [|reflexivity]. apply sector_eqb_ok in Eq. exfalso. apply Hne. apply (nodup_nth s q t (b', k') Hns Hq). congruence.
    - destruct (sector_eqb (b, k) (b', k')) eqn:Eq; [|reflexivity]. apply sector_eqb_ok in Eq. exfalso. apply look_up_none in El. apply El. rewrite Eq. eapply nth_error_In. exact Hq. }
  cut (cadds sp ss (contribution sp ss s0 species input ix) (fun c =>
     if negb (r_T xb =? r_T xk) then Ok c else if r_T xk =? 0 then (if Nat.eqb species 2 then add_to 0 ix m c else Ok c) else if r_T xk =? 1 then
       for_each [0; 1; 2]%nat (fun T0 c => ' (s, ms) <- get (nth_error c T0) ;; t <- get (look_up_sector s b k) ;; add_to T0 t (mscale (tz_to_t T0 species) m) c) c else Ok c)); [intros H; exact (H c Hc)|].
  clear c Hc. assert (Hz : weight (r_T xb) (r_T xk) species 0 = 0%R -> weight (r_T xb) (r_T xk) species 1 = 0%R -> weight (r_T xb) (r_T xk) species 2 = 0%R ->
     forall T0 s q x y, nth_error ss T0 = Some s -> in_sector sp s q x y -> 0%R = contribution sp ss s0 species input ix T0 q x y).
  { intros W0 W1 W2 T0 s q x y Hs Hin. rewrite (Hcon T0 s) by assumption. assert (T0 < 3)%nat by (rewrite <- H3; apply nth_error_Some; congruence).
    assert (weight (r_T xb) (r_T xk) species T0 = 0%R) as -> by (destruct T0 as [|[|[|T0]]]; try assumption; lia). destruct (look_up_sector s b k); [destruct (Nat.eqb q n)|]; ring. }
  unfold weight in Hz, Hcon. destruct (Z.eqb_spec (r_T xb) (r_T xk)) as [ET|ET]; cbn [negb] in *.
  2:{ apply (cadds_ext _ _ _ _ _ (cadds_none sp ss)). apply Hz; reflexivity. }
  destruct (Z.eqb_spec (r_T xk) 0) as [E0|E0].
  { destruct (Nat.eqb_spec species 2) as [->|Hs2]; cbn [andb] in *.
    - apply (cadds_ext _ _ _ _ _ (add_to_adds sp ss 0 s0 ix b k m Hs0 Eix Rm Cm)). intros T0 s q x y Hs Hin. rewrite (Hcon T0 s) by assumption.
      destruct T0 as [|T0]; cbn [Nat.eqb andb].
      + rewrite Hs0 in Hs. injection Hs as <-. rewrite (look_up_ok s0 ix b k); [|rewrite Forall_forall in Hnd; apply Hnd; eapply nth_error_In; exact Hs0|exact Eix]. destruct (Nat.eqb q ix); ring.
      + destruct (look_up_sector s b k); [destruct (Nat.eqb q n)|]; ring.
    - apply (cadds_ext _ _ _ _ _ (cadds_none sp ss)). apply Hz; reflexivity. }
  destruct (Z.eqb_spec (r_T xk) 1) as [E1|E1].
  2:{ apply (cadds_ext _ _ _ _ _ (cadds_none sp ss)). apply Hz; reflexivity. }
  eapply cadds_ext.
  - apply (cadds_each sp ss (fun T0 T0' q x y => match nth_error ss T0 with Some s => match look_up_sector s b k with
        Some t => if Nat.eqb T0' T0 && Nat.eqb q t then (tz_to_t T0 species * at_ m x y)%R else 0%R | None => 0%R end | None => 0%R end)).
    intros T0 HT0 c Hc. assert (HT : (T0 < 3)%nat) by (cbn in HT0; lia). destruct (three ss T0 H3 HT) as (s & Hs). destruct (Forall2_nth _ _ _ _ _ Hc Hs) as ([s' ms] & Ec & Es & _). cbn [fst] in Es. subst s'.
    rewrite Ec. cbn [get bind]. assert (Hbk : In (b, k) s) by (apply (Hin1 s0 b k xb xk s Hs0); try assumption; [eapply nth_error_In; exact Eix|congruence|eapply nth_error_In; exact Hs]).
    destruct (look_up_sector s b k) as [t|] eqn:El; [|apply look_up_none in El; contradiction]. cbn [get bind]. pose proof (look_up_some _ _ _ _ El) as Ht.
    destruct (add_to_adds sp ss T0 s t b k (mscale (tz_to_t T0 species) m) Hs Ht Rm Cm c Hc) as (c1 & E1' & H1' & A1). exists c1. split; [exact E1'|]. split; [exact H1'|].
    intros T0' s' q x y Hs' Hq. rewrite (A1 T0' s') by assumption. rewrite Hs, El. reflexivity.
  - intros T0 s q x y Hs Hin. rewrite (Hcon T0 s) by assumption. assert (HT : (T0 < 3)%nat) by (rewrite <- H3; apply nth_error_Some; congruence).
    assert (D : forall x y : nat, {x = y} + {x <> y}) by (apply Nat.eq_dec).
    rewrite (lsum_one nat D [0; 1; 2]%nat T0).
    + rewrite Hs, Nat.eqb_refl. cbn [andb]. destruct (look_up_sector s b k); reflexivity.
    + constructor; [cbn; lia|constructor; [cbn; lia|constructor; [cbn; lia|constructor]]].
    + cbn. lia.
    + intros T1 _ Hne. replace (Nat.eqb T0 T1) with false by (symmetry; apply Nat.eqb_neq; congruence). cbn [andb]. destruct (nth_error ss T1); [destruct (look_up_sector _ b k)|]; reflexivity.
Qed.
Lemma accumulate_adds : forall sp ss s0 pp nn pn, rsectors_ok sp ss -> nth_error ss 0 = Some s0 -> rblocks_ok sp s0 pp -> rblocks_ok sp s0 nn -> rblocks_ok sp s0 pn ->
  cadds sp ss (fun T0 q x y => lsum [(0, pp); (1, nn); (2, pn)]%nat (fun p => lsum (seq 0 (length s0)) (fun ix => contribution sp ss s0 (fst p) (snd p) ix T0 q x y))) (accumulate sp s0 [pp; nn; pn]).
Proof.
  intros sp ss s0 pp nn pn Hss Hs0 H1 H2 H3. unfold accumulate. cbn [length seq combine].
  apply cadds_each. intros [sp' input] Hin. cbn [fst snd]. assert (Hi : rblocks_ok sp s0 input) by (destruct Hin as [E|[E|[E|[]]]]; injection E as _ <-; assumption).
  apply cadds_each. intros ix Hix. apply in_seq in Hix. apply accumulate_sector_adds; try assumption. lia.
Qed.
(** what is in the components after reading *)
Lemma accumulate_value : forall sp ss s0 pp nn pn c, rsectors_ok sp ss -> nth_error ss 0 = Some s0 -> rblocks_ok sp s0 pp -> rblocks_ok sp s0 nn -> rblocks_ok sp s0 pn ->
  comps_ok sp ss c -> zero_comps sp ss c -> exists c', accumulate sp s0 [pp; nn; pn] c = Ok c' /\ comps_ok sp ss c'
  /\ forall T0 s q ix b k xb xk x y, nth_error ss T0 = Some s -> nth_error s q = Some (b, k) -> nth_error s0 ix = Some (b, k) -> nth_error sp b = Some xb -> nth_error sp k = Some xk ->
     in_sector sp s q x y ->
     cent c' T0 q x y = if negb (r_T xb =? r_T xk) then 0%R else if r_T xk =? 0 then (if Nat.eqb T0 0 then entry_of pn ix x y else 0%R)
       else if r_T xk =? 1 then (tz_to_t T0 0 * entry_of pp ix x y + tz_to_t T0 1 * entry_of nn ix x y + tz_to_t T0 2 * entry_of pn ix x y)%R else 0%R.
Proof.
  intros sp ss s0 pp nn pn c Hss Hs0 H1 H2 H3 Hc Hz. destruct (accumulate_adds sp ss s0 pp nn pn Hss Hs0 H1 H2 H3 c Hc) as (c' & E & Hc' & Hat).
  exists c'. split; [exact E|]. split; [exact Hc'|]. intros T0 s q ix b k xb xk x y Hs Hq Hix Hb Hk Hin. rewrite (Hat T0 s q x y Hs Hin), (Hz T0 s q x y Hs Hin), Rplus_0_l.
  destruct Hss as (H3' & Hnd & _). assert (Hn0 : NoDup s0) by (rewrite Forall_forall in Hnd; apply Hnd; eapply nth_error_In; exact Hs0).
  assert (One : forall species input, lsum (seq 0 (length s0)) (fun ix => contribution sp ss s0 species input ix T0 q x y) = (weight (r_T xb) (r_T xk) species T0 * entry_of input ix x y)%R).
  { intros species input. rewrite (lsum_one nat Nat.eq_dec (seq 0 (length s0)) ix).
    - unfold contribution. rewrite Hix, Hs, Hq, sector_eqb_refl. unfold rT. cbn [fst snd]. rewrite Hb, Hk. reflexivity.
    - apply seq_NoDup.
    - apply in_seq. split; [lia|]. cbn. apply nth_error_Some. congruence.
    - intros ix' Hin' Hne. unfold contribution. destruct (nth_error s0 ix') as [p|] eqn:Ep; [|reflexivity]. rewrite Hs, Hq. destruct (sector_eqb p (b, k)) eqn:Eq; [|reflexivity].
      apply sector_eqb_ok in Eq. subst p. exfalso. apply Hne. apply (nodup_nth s0 ix' ix (b, k)); assumption. }
  cbn [lsum fst snd]. rewrite !One. unfold weight. destruct (negb (r_T xb =? r_T xk)); [ring|]. destruct (r_T xk =? 0); [cbn [Nat.eqb andb]; destruct (Nat.eqb T0 0); ring|]. destruct (r_T xk =? 1); ring.
Qed.
(** the tables are inverse *)
Definition branch_coeff (Tz : Z) (T0 : Z) : R := cg 1 Tz T0 0 1 Tz.
Lemma cg_values : forall Tz T0, In (Tz, T0) [(1,0); (1,1); (1,2); (0,0); (0,1); (0,2); (-1,0); (-1,1); (-1,2)] ->
  cg 1 Tz T0 0 1 Tz = match Tz, T0 with _, 0 => 1 | 1, 1 => sqrt (1/2) | 1, _ => sqrt (1/10) | 0, 1 => 0 | 0, _ => - sqrt (2/5) | _, 1 => - sqrt (1/2) | _, _ => sqrt (1/10) end%R.
Proof. intros Tz T0 H. repeat (destruct H as [E|H]; [injection E as <- <-; cg_value|]). destruct H. Qed.
Lemma sqrt_prod : forall a b c, (0 <= a)%R -> (0 <= c)%R -> (a * b = c * c)%R -> (sqrt a * sqrt b = c)%R.
Proof. intros a b c Ha Hc E. rewrite <- sqrt_mult_alt by exact Ha. rewrite E. apply sqrt_square. exact Hc. Qed.
Lemma cg1 : forall Tz T0, In (Tz, T0) [(1,0); (1,1); (1,2); (0,0); (0,1); (0,2); (-1,0); (-1,1); (-1,2)] ->
  cg 1 Tz T0 0 1 Tz = match Tz, T0 with _, 0 => 1 | 1, 1 => sqrt (1/2) | 1, _ => sqrt (1/10) | 0, 1 => 0 | 0, _ => - sqrt (2/5) | _, 1 => - sqrt (1/2) | _, _ => sqrt (1/10) end%R.
Proof. exact cg_values. Qed.
Ltac use_cg := repeat match goal with |- context [cg 1 ?a ?b 0 1 ?a] => let H := fresh in pose proof (cg1 a b) as H; cbv iota beta in H; rewrite H by (cbn; tauto); clear H end.
Lemma sqrt_half_9 : (sqrt (1/2) * sqrt (9/2) = 3/2)%R. Proof. apply sqrt_prod; lra. Qed.
Lemma sqrt_tenth_5 : (sqrt (1/10) * sqrt (5/2) = 1/2)%R. Proof. apply sqrt_prod; lra. Qed.
Lemma sqrt_tenth_10 : (sqrt (1/10) * sqrt 10 = 1)%R. Proof. apply sqrt_prod; lra. Qed.
Lemma sqrt_25_5 : (sqrt (2/5) * sqrt (5/2) = 1)%R. Proof. apply sqrt_prod; lra. Qed.
Lemma sqrt_25_10 : (sqrt (2/5) * sqrt 10 = 2)%R. Proof. apply sqrt_prod; lra. Qed.
Lemma tables_inverse : forall sp v0 v1 v2, (sp < 3)%nat ->
  lsum [0; 1; 2] (fun T0 => cg 1 (species_Tz sp) T0 0 1 (species_Tz sp) *
     (tz_to_t (Z.to_nat T0) 0 * v0 + tz_to_t (Z.to_nat T0) 1 * v1 + tz_to_t (Z.to_nat T0) 2 * v2))%R = nth sp [v0; v1; v2] 0%R.
Proof.
  intros sp v0 v1 v2 H. pose proof sqrt_half_9. pose proof sqrt_tenth_5. pose proof sqrt_tenth_10. pose proof sqrt_25_5. pose proof sqrt_25_10.
  destruct sp as [|[|[|sp]]]; [| | |lia]; unfold species_Tz; cbn [lsum nth]; use_cg; change (Z.to_nat 0) with 0%nat; change (Z.to_nat 1) with 1%nat; change (Z.to_nat 2) with 2%nat; unfold tz_to_t; cbv iota.
  - transitivity (v0 * (1/3 + 1/3 * (sqrt (1/2) * sqrt (9/2)) + 1/3 * (sqrt (1/10) * sqrt (5/2))) + v1 * (1/3 - 1/3 * (sqrt (1/2) * sqrt (9/2)) + 1/3 * (sqrt (1/10) * sqrt (5/2))) + v2 * (1/3 - 1/3 * (sqrt (1/10) * sqrt 10)))%R; [ring|].
    rewrite H0, H1, H2. lra.
  - transitivity (v0 * (1/3 - 1/3 * (sqrt (1/2) * sqrt (9/2)) + 1/3 * (sqrt (1/10) * sqrt (5/2))) + v1 * (1/3 + 1/3 * (sqrt (1/2) * sqrt (9/2)) + 1/3 * (sqrt (1/10) * sqrt (5/2))) + v2 * (1/3 - 1/3 * (sqrt (1/10) * sqrt 10)))%R; [ring|].
    rewrite H0, H1, H2. lra.
  - transitivity (v0 * (1/3 - 1/3 * (sqrt (2/5) * sqrt (5/2))) + v1 * (1/3 - 1/3 * (sqrt (2/5) * sqrt (5/2))) + v2 * (1/3 + 1/3 * (sqrt (2/5) * sqrt 10)))%R; [ring|].
    rewrite H3, H4. lra.
Qed.
Lemma tables_inverse' : forall T0 e0 e1 e2, (T0 < 3)%nat ->
  lsum [0; 1; 2]%nat (fun sp => tz_to_t T0 sp * (cg 1 (species_Tz sp) 0 0 1 (species_Tz sp) * e0 + cg 1 (species_Tz sp) 1 0 1 (species_Tz sp) * e1 + cg 1 (species_Tz sp) 2 0 1 (species_Tz sp) * e2))%R
  = nth T0 [e0; e1; e2] 0%R.
Proof.
  intros T0 e0 e1 e2 H. pose proof sqrt_half_9. pose proof sqrt_tenth_5. pose proof sqrt_tenth_10. pose proof sqrt_25_5. pose proof sqrt_25_10.
  assert (S1 : sqrt (2/5) = (2 * sqrt (1/10))%R). { replace (2/5)%R with ((2 * 2) * (1 / 10))%R by field. rewrite sqrt_mult_alt by lra. rewrite sqrt_square by lra. reflexivity. }
  assert (S2 : sqrt 10 = (2 * sqrt (5/2))%R). { replace 10%R with ((2 * 2) * (5 / 2))%R by field. rewrite sqrt_mult_alt by lra. rewrite sqrt_square by lra. reflexivity. }
  assert (S3 : sqrt (9/2) = (3 * sqrt (1/2))%R). { replace (9/2)%R with ((3 * 3) * (1 / 2))%R by field. rewrite sqrt_mult_alt by lra. rewrite sqrt_square by lra. reflexivity. }
  unfold lsum, species_Tz. use_cg. destruct T0 as [|[|[|T0]]]; [| | |lia]; unfold tz_to_t; cbv iota; cbn [nth].
  - rewrite S1. transitivity (e0 + 0 * e2)%R; [field|]. lra.
  - rewrite S1. transitivity (e1 * (2 / 3 * (sqrt (1/2) * sqrt (9/2))))%R; [field|]. rewrite H0. lra.
  - rewrite S1, S2. transitivity (e2 * (2 * (sqrt (1/10) * sqrt (5/2))))%R; [field|]. rewrite H1. lra.
Qed.
(** * Coulomb *)
Lemma store_each : forall (P : nat -> mat R -> mat R -> Prop) (body : nat -> blocks R -> outcome (blocks R)) l ms, NoDup l -> (forall ix, In ix l -> (ix < length ms)%nat) ->
  (forall ix ms' m, In ix l -> nth_error ms' ix = Some m -> nth_error ms ix = Some m -> length ms' = length ms -> exists m', body ix ms' = store ms' ix m' /\ P ix m m') ->
  exists ms', for_each l body ms = Ok ms' /\ length ms' = length ms
  /\ forall i m, nth_error ms i = Some m -> exists m', nth_error ms' i = Some m' /\ (In i l -> P i m m') /\ (~ In i l -> m' = m).
Proof.
  intros P body l. induction l as [|ix l IH]; intros ms Hn Hl Hb; cbn [for_each].
  - exists ms. split; [reflexivity|]. split; [reflexivity|]. intros i m Hm. exists m. split; [exact Hm|]. split; [intros []|reflexivity].
  - inversion Hn as [|? ? Hnin Hn']; subst. pose proof (Hl ix (or_introl eq_refl)) as Hix. destruct (nth_error ms ix) as [m0|] eqn:E0; [|apply nth_error_None in E0; lia].
    destruct (Hb ix ms m0 (or_introl eq_refl) E0 E0 eq_refl) as (m1 & E1 & P1). rewrite E1. destruct (store_ok ms ix m1 Hix) as (ms1 & Es & El & En). rewrite Es. cbn [bind].
    destruct (IH ms1) as (ms' & E & Elen & Hat).
    + exact Hn'.
    + intros i Hi. rewrite El. apply Hl. right. exact Hi.
    + intros i ms2 m Hi H2 H1 Hlen. rewrite En in H1. destruct (Nat.eqb_spec i ix) as [->|]; [contradiction|]. apply Hb; [right; exact Hi|exact H2|exact H1|congruence].
    + exists ms'. split; [exact E|]. split; [congruence|]. intros i m Hm. pose proof (En i) as Ei. destruct (Nat.eqb_spec i ix) as [->|Hne].
      * destruct (Hat ix m1 Ei) as (m' & Em' & _ & Hsame). exists m'. split; [exact Em'|]. split.
        -- intros _. rewrite (Hsame Hnin). rewrite E0 in Hm. injection Hm as <-. exact P1.
        -- intros Hni. elim Hni. left. reflexivity.
      * rewrite Hm in Ei. destruct (Hat i m Ei) as (m' & Em' & Hp & Hsame). exists m'. split; [exact Em'|]. split.
        -- intros [->|Hin]; [congruence|auto].
        -- intros Hni. apply Hsame. intros Hin. apply Hni. right. exact Hin.
Qed.
Definition coulomb_value (t : optype) (T0 : nat) (T : Z) (v : R) : R :=
  match t with
  | OpTotal => if Nat.eqb T0 0 then v else 0%R
  | _ => if T =? 1 then (nth T0 (match t with OpP => [1 / 3; 1 / sqrt 2; sqrt 10 / 6]%R | _ => [1 / 3; - (1) / sqrt 2; sqrt 10 / 6]%R end) 0 * v)%R else 0%R
  end.
Lemma coulomb_sector_ok : forall radial t Nmax sp T0 b k x m, nmax_ok Nmax sp -> (T0 < 3)%nat -> nth_error sp k = Some x -> rows m = rdim sp b -> cols m = rdim sp k ->
  (forall i j, (i < rows m)%nat -> (j < cols m)%nat -> at_ m i j = 0%R) ->
  exists m', coulomb_sector radial t Nmax sp (Z.of_nat T0) (b, k) m = Ok m' /\ rows m' = rdim sp b /\ cols m' = rdim sp k
  /\ forall i j, (i < rows m)%nat -> (j < cols m)%nat -> at_ m' i j =
       if Nat.eqb b k then coulomb_value t T0 (r_T x) (1 / sqrt 2 * radial (Z.of_nat i) (Z.of_nat j) (r_L x))%R else 0%R.
Proof.
  intros radial t Nmax sp T0 b k x m Hnm HT Hk Rm Cm Hz. unfold coulomb_sector. cbn [fst snd]. destruct (Nat.eqb_spec b k) as [->|]; cbn [negb].
  2:{ exists m. auto. }
  rewrite Hk. cbn [get bind]. destruct (Hnm k x Hk) as [Hd Hpos]. rewrite Z.quot_div_nonneg by lia. rewrite Hd, Z.eqb_refl. cbn [cassert bind].
  assert (Hdim : rdim sp k = r_dim x) by (unfold rdim; rewrite Hk; reflexivity).
  replace (Z.to_nat (Z.of_nat (r_dim x) - 1 + 1)) with (r_dim x) by lia.
  assert (G : forall factor, (forall v, coulomb_value t T0 (r_T x) v = factor * v)%R -> exists m', loop2 (pairs (r_dim x) (r_dim x)) (fun i j m => mat_put m i j (factor * (1 / sqrt 2) * radial (Z.of_nat i) (Z.of_nat j) (r_L x))%R) m = Ok m'
     /\ rows m' = rdim sp k /\ cols m' = rdim sp k /\ forall i j, (i < rows m)%nat -> (j < cols m)%nat -> at_ m' i j = coulomb_value t T0 (r_T x) (1 / sqrt 2 * radial (Z.of_nat i) (Z.of_nat j) (r_L x))%R).
  { intros factor Hf. destruct (fill_loop R (r_dim x) (r_dim x) (fun i j => Ok (factor * (1 / sqrt 2) * radial (Z.of_nat i) (Z.of_nat j) (r_L x))%R) (fun i j => (factor * (1 / sqrt 2) * radial (Z.of_nat i) (Z.of_nat j) (r_L x))%R)
      (pairs (r_dim x) (r_dim x)) m (NoDup_pairs _ _)) as (r & E & Er & Ec & Hat).
    - intros i j Hin. apply in_pairs in Hin. tauto.
    - congruence.
    - congruence.
    - exists r. split; [exact E|]. split; [congruence|]. split; [congruence|]. intros i j Hi Hj. rewrite (proj1 (Hat i j)) by (apply in_pairs; split; congruence). rewrite Hf. ring. }
  unfold coulomb_factor. destruct t; cbn [single_species_factors].
  - destruct (Z.eqb_spec (r_T x) 1) as [E1|E1]; cbn [bind].
    + unfold at_z. replace (Z.of_nat T0 <? 0) with false by (symmetry; apply Z.ltb_ge; lia). rewrite Nat2Z.id.
      destruct T0 as [|[|[|T0]]]; [| | |lia]; cbn [nth_error get bind]; apply G; intros v; cbn [coulomb_value nth]; rewrite E1; reflexivity.
    + exists m. split; [reflexivity|]. split; [congruence|]. split; [congruence|]. intros i j Hi Hj. cbn [coulomb_value]. apply Z.eqb_neq in E1. rewrite E1. auto.
  - destruct (Z.eqb_spec (r_T x) 1) as [E1|E1]; cbn [bind].
    + unfold at_z. replace (Z.of_nat T0 <? 0) with false by (symmetry; apply Z.ltb_ge; lia). rewrite Nat2Z.id.
      destruct T0 as [|[|[|T0]]]; [| | |lia]; cbn [nth_error get bind]; apply G; intros v; cbn [coulomb_value nth]; rewrite E1; reflexivity.
    + exists m. split; [reflexivity|]. split; [congruence|]. split; [congruence|]. intros i j Hi Hj. cbn [coulomb_value]. apply Z.eqb_neq in E1. rewrite E1. auto.
  - cbn [bind]. destruct T0 as [|T0].
    + apply G. intros v. cbn. ring.
    + replace (Z.of_nat (S T0) =? 0) with false by (symmetry; apply Z.eqb_neq; lia). exists m. split; [reflexivity|]. split; [congruence|]. split; [congruence|]. intros i j Hi Hj. cbn. auto.
Qed.
Lemma coulomb_component_ok : forall radial t Nmax sp T0 s ms, nmax_ok Nmax sp -> (T0 < 3)%nat -> (forall b k, In (b, k) s -> (b < length sp)%nat /\ (k < length sp)%nat) -> rblocks_ok sp s ms ->
  (forall q x y, in_sector sp s q x y -> entry_of ms q x y = 0%R) ->
  exists ms', coulomb_component radial t Nmax sp (Z.of_nat T0) s ms = Ok ms' /\ rblocks_ok sp s ms'
  /\ forall q b k xk x y, nth_error s q = Some (b, k) -> nth_error sp k = Some xk -> in_sector sp s q x y -> entry_of ms' q x y =
       if Nat.eqb b k then coulomb_value t T0 (r_T xk) (1 / sqrt 2 * radial (Z.of_nat x) (Z.of_nat y) (r_L xk))%R else 0%R.
Proof.
  intros radial t Nmax sp T0 s ms Hnm HT Hb Hms Hz. pose proof (Forall2_len _ _ _ Hms) as Hlen.
  set (P := fun (ix : nat) (m m' : mat R) => forall b k xk, nth_error s ix = Some (b, k) -> nth_error sp k = Some xk -> rows m' = rdim sp b /\ cols m' = rdim sp k
     /\ forall i j, (i < rdim sp b)%nat -> (j < rdim sp k)%nat -> at_ m' i j = if Nat.eqb b k then coulomb_value t T0 (r_T xk) (1 / sqrt 2 * radial (Z.of_nat i) (Z.of_nat j) (r_L xk))%R else 0%R).
  destruct (store_each P (fun ix ms => x <- get (nth_error s ix) ;; m <- get (nth_error ms ix) ;; m' <- coulomb_sector radial t Nmax sp (Z.of_nat T0) x m ;; store ms ix m') (seq 0 (length s)) ms) as (ms' & E & El & Hat).
  - apply seq_NoDup.
  - intros ix Hix. apply in_seq in Hix. unfold lsectors in *. lia.
  - intros ix ms' m Hix Hm' Hm Hl. destruct (nth_error s ix) as [[b k]|] eqn:Es; [|apply nth_error_None in Es; apply in_seq in Hix; lia].
    destruct (Forall2_nth _ _ _ _ _ Hms Es) as (m0 & Em0 & Rm & Cm). rewrite Hm in Em0. injection Em0 as <-. cbn [fst snd] in Rm, Cm.
    destruct (Hb b k (nth_error_In _ _ Es)) as [Hbl Hkl]. destruct (nth_error sp k) as [xk|] eqn:Ek; [|apply nth_error_None in Ek; lia].
    destruct (coulomb_sector_ok radial t Nmax sp T0 b k xk m Hnm HT Ek Rm Cm) as (m1 & E1 & R1 & C1 & A1).
    { intros i j Hi Hj. specialize (Hz ix i j). unfold entry_of in Hz. rewrite Hm in Hz. apply Hz. exists b, k. split; [exact Es|]. split; congruence. }
    exists m1. split; [cbn [get bind]; rewrite Hm'; cbn [get bind]; rewrite E1; reflexivity|]. intros b' k' xk' Es' Ek'. rewrite Es in Es'. injection Es' as <- <-. rewrite Ek in Ek'. injection Ek' as <-.
    split; [exact R1|]. split; [exact C1|]. intros i j Hi Hj. apply A1; congruence.
  - exists ms'. split; [exact E|]. assert (Q : forall i m', nth_error ms' i = Some m' -> exists m, nth_error ms i = Some m /\ P i m m').
    { intros i m' Hm'. destruct (nth_error ms i) as [m|] eqn:Em; [|apply nth_error_None in Em; assert (i < length ms')%nat by (apply nth_error_Some; congruence); lia].
      destruct (Hat i m Em) as (m2 & Em2 & Hp & _). rewrite Hm' in Em2. injection Em2 as <-. exists m. split; [reflexivity|]. apply Hp. apply in_seq. split; [lia|].
      assert (i < length ms)%nat by (apply nth_error_Some; congruence). cbn. unfold lsectors in *. lia. }
    split.
    + apply Forall2_intro; [unfold lsectors in *; lia|]. intros i [b k] m' Hi Hm'. destruct (Q i m' Hm') as (m & Em & Hp). destruct (Hb b k (nth_error_In _ _ Hi)) as [_ Hkl].
      destruct (nth_error sp k) as [xk|] eqn:Ek; [|apply nth_error_None in Ek; lia]. destruct (Hp b k xk Hi Ek) as (R1 & C1 & _). auto.
    + intros q b k xk x y Hq Hk (b' & k' & Hq' & Hx & Hy). rewrite Hq in Hq'. injection Hq' as <- <-. unfold entry_of.
      destruct (nth_error ms' q) as [m'|] eqn:Em'; [|apply nth_error_None in Em'; assert (q < length s)%nat by (apply nth_error_Some; congruence); unfold lsectors in *; lia].
      destruct (Q q m' Em') as (m & Em & Hp). destruct (Hp b k xk Hq Hk) as (_ & _ & Ha). apply Ha; assumption.
Qed.
Lemma coulomb_each : forall radial t Nmax sp ss l c, nmax_ok Nmax sp -> length ss = 3%nat -> (forall s b k, In s ss -> In (b, k) s -> (b < length sp)%nat /\ (k < length sp)%nat) -> NoDup l -> (forall T0, In T0 l -> 0 <= T0 < 3) ->
  comps_ok sp ss c -> (forall T0 s q x y, In (Z.of_nat T0) l -> nth_error ss T0 = Some s -> in_sector sp s q x y -> cent c T0 q x y = 0%R) ->
  exists c', for_each l (fun T0 c => ' (sectors, ms) <- at_z c T0 ;; ms' <- coulomb_component radial t Nmax sp T0 sectors ms ;; store c (Z.to_nat T0) (sectors, ms')) c = Ok c' /\ comps_ok sp ss c'
  /\ forall T0 s q b k xk x y, nth_error ss T0 = Some s -> nth_error s q = Some (b, k) -> nth_error sp k = Some xk -> in_sector sp s q x y ->
     cent c' T0 q x y = if existsb (Z.eqb (Z.of_nat T0)) l then if Nat.eqb b k then coulomb_value t T0 (r_T xk) (1 / sqrt 2 * radial (Z.of_nat x) (Z.of_nat y) (r_L xk))%R else 0%R else cent c T0 q x y.
Proof.
  intros radial t Nmax sp ss l c Hnm H3 Hb Hn Hl. revert c. induction l as [|z l IH]; intros c Hc Hz; cbn [for_each].
  - exists c. split; [reflexivity|]. split; [exact Hc|]. reflexivity.
  - inversion Hn as [|? ? Hnin Hn']; subst. pose proof (Hl z (or_introl eq_refl)) as Hz3. assert (HT : (Z.to_nat z < 3)%nat) by lia.
    destruct (three ss (Z.to_nat z) H3 HT) as (s & Hs). destruct (Forall2_nth _ _ _ _ _ Hc Hs) as ([s' ms] & Ec & Es & Hms). cbn [fst snd] in Es, Hms. subst s'.
    unfold at_z at 1. replace (z <? 0) with false by (symmetry; apply Z.ltb_ge; lia). rewrite Ec. cbn [get bind].
    destruct (coulomb_component_ok radial t Nmax sp (Z.to_nat z) s ms Hnm HT (fun b k => Hb s b k (nth_error_In _ _ Hs)) Hms) as (ms1 & E1 & Hms1 & A1).
    { intros q x y Hin. specialize (Hz (Z.to_nat z) s q x y). unfold cent in Hz. rewrite Ec in Hz. apply Hz; try assumption. left. lia. }
    rewrite Z2Nat.id in E1 by lia. rewrite E1. cbn [bind].
    destruct (store_ok c (Z.to_nat z) (s, ms1)) as (c1 & Ec1 & Elc & Enc); [apply nth_error_Some; congruence|].
    match goal with |- context [bind ?X _] => replace X with (Ok c1) by (symmetry; exact Ec1) end. cbn [bind].
    assert (Hc1 : comps_ok sp ss c1).
    { apply Forall2_intro; [rewrite Elc; apply (Forall2_len _ _ _ Hc)|]. intros i si p Hi Hp. rewrite Enc in Hp. destruct (Nat.eqb_spec i (Z.to_nat z)) as [->|].
      - injection Hp as <-. pose proof (eq_trans (eq_sym Hi) Hs) as Hsi. injection Hsi as ->. cbn. auto.
      - destruct (Forall2_nth _ _ _ _ _ Hc Hi) as (p' & Ep & Hp'). rewrite Ep in Hp. injection Hp as <-. exact Hp'. }
    assert (Hcent : forall T0 q x y, cent c1 T0 q x y = if Nat.eqb T0 (Z.to_nat z) then entry_of ms1 q x y else cent c T0 q x y).
    { intros T0 q x y. unfold cent. rewrite Enc. destruct (Nat.eqb T0 (Z.to_nat z)); reflexivity. }
    destruct (IH Hn' (fun T0 H => Hl T0 (or_intror H)) c1 Hc1) as (c' & E & Hc' & A).
    { intros T0 s0 q x y Hin Hs0 Hq. rewrite Hcent. destruct (Nat.eqb_spec T0 (Z.to_nat z)) as [->|]; [rewrite Z2Nat.id in Hin by lia; contradiction|]. apply (Hz T0 s0); auto. right. exact Hin. }
    exists c'. split; [exact E|]. split; [exact Hc'|]. intros T0 s0 q b k xk x y Hs0 Hq Hk Hin. rewrite (A T0 s0 q b k xk x y Hs0 Hq Hk Hin). cbn [existsb]. rewrite Hcent.
    destruct (existsb (Z.eqb (Z.of_nat T0)) l) eqn:Ex; [rewrite orb_true_r; reflexivity|]. rewrite orb_false_r.
    destruct (Z.eqb_spec (Z.of_nat T0) z) as [Ez|Ez].
    + replace (Nat.eqb T0 (Z.to_nat z)) with true by (symmetry; apply Nat.eqb_eq; lia). assert (T0 = Z.to_nat z) by lia. subst T0. rewrite Hs in Hs0. injection Hs0 as <-. apply (A1 q b k xk x y); assumption.
    + replace (Nat.eqb T0 (Z.to_nat z)) with false by (symmetry; apply Nat.eqb_neq; lia). reflexivity.
Qed.
Lemma coulomb_ok : forall radial t Nmax T0_min T0_max sp ss c, nmax_ok Nmax sp -> length ss = 3%nat -> (forall s b k, In s ss -> In (b, k) s -> (b < length sp)%nat /\ (k < length sp)%nat) ->
  0 <= T0_min -> T0_max <= 2 -> comps_ok sp ss c -> zero_comps sp ss c ->
  exists c', coulomb radial t Nmax 0 0 T0_min T0_max sp c = Ok c' /\ comps_ok sp ss c'
  /\ forall T0 s q b k xk x y, nth_error ss T0 = Some s -> nth_error s q = Some (b, k) -> nth_error sp k = Some xk -> in_sector sp s q x y ->
     cent c' T0 q x y = if (T0_min <=? Z.of_nat T0) && (Z.of_nat T0 <=? T0_max) && Nat.eqb b k then coulomb_value t T0 (r_T xk) (1 / sqrt 2 * radial (Z.of_nat x) (Z.of_nat y) (r_L xk))%R else 0%R.
Proof.
  intros radial t Nmax T0_min T0_max sp ss c Hnm H3 Hb Hmin Hmax Hc Hz. unfold coulomb. cbn [Z.eqb cassert bind].
  destruct (coulomb_each radial t Nmax sp ss (zrange T0_min T0_max) c Hnm H3 Hb (NoDup_zrange _ _)) as (c' & E & Hc' & A).
  - intros T0 H. apply in_zrange in H. lia.
  - exact Hc.
  - intros T0 s q x y _ Hs Hin. apply (Hz T0 s); assumption.
  - exists c'. split; [exact E|]. split; [exact Hc'|]. intros T0 s q b k xk x y Hs Hq Hk Hin. rewrite (A T0 s q b k xk x y Hs Hq Hk Hin). rewrite (Hz T0 s q x y Hs Hin).
    replace (existsb (Z.eqb (Z.of_nat T0)) (zrange T0_min T0_max)) with ((T0_min <=? Z.of_nat T0) && (Z.of_nat T0 <=? T0_max)).
    + destruct (_ && _); reflexivity.
    + apply eq_true_iff_eq. rewrite andb_true_iff, !Z.leb_le, existsb_exists. split.
      * intros H. exists (Z.of_nat T0). split; [apply in_zrange; exact H|apply Z.eqb_refl].
      * intros (z & Hin' & Ez). apply Z.eqb_eq in Ez. subst z. apply in_zrange in Hin'. exact Hin'.
Qed.
Lemma sqrt_half_inv : (sqrt (1/2) * (1 / sqrt 2) = 1/2)%R.
Proof. rewrite sqrt_div_alt by lra. rewrite sqrt_1. assert (sqrt 2 * sqrt 2 = 2)%R by (apply sqrt_sqrt; lra). assert (sqrt 2 <> 0)%R by (intros E; rewrite E in H; lra).
  replace (1 / sqrt 2 * (1 / sqrt 2))%R with (1 / (sqrt 2 * sqrt 2))%R by (field; assumption). rewrite H. lra. Qed.
Lemma coulomb_branch : forall t Tz v, t <> OpTotal -> Z.abs Tz <= 1 ->
  (cg 1 Tz 0 0 1 Tz * coulomb_value t 0 1 v + cg 1 Tz 1 0 1 Tz * coulomb_value t 1 1 v + cg 1 Tz 2 0 1 Tz * coulomb_value t 2 1 v)%R
  = if Tz =? (match t with OpP => 1 | _ => -1 end) then v else 0%R.
Proof.
  intros t Tz v Ht HTz. pose proof sqrt_half_inv as I1. pose proof sqrt_tenth_10 as I2. pose proof sqrt_25_10 as I3.
  assert (C : Tz = 1 \/ Tz = 0 \/ Tz = -1) by lia.
  destruct t; [| |congruence]; (destruct C as [-> | [-> | ->]]; unfold coulomb_value; cbn [Z.eqb Pos.eqb nth]; use_cg; unfold Rdiv in *).
  - transitivity (v * (1 * / 3 + sqrt (1 * / 2) * (1 * / sqrt 2) + / 6 * (sqrt (1 * / 10) * sqrt 10)))%R; [ring|]. rewrite I1, I2. field.
  - transitivity (v * (1 * / 3 - / 6 * (sqrt (2 * / 5) * sqrt 10)))%R; [ring|]. rewrite I3. field.
  - transitivity (v * (1 * / 3 - sqrt (1 * / 2) * (1 * / sqrt 2) + / 6 * (sqrt (1 * / 10) * sqrt 10)))%R; [ring|]. rewrite I1, I2. field.
  - transitivity (v * (1 * / 3 - sqrt (1 * / 2) * (1 * / sqrt 2) + / 6 * (sqrt (1 * / 10) * sqrt 10)))%R; [ring|]. rewrite I1, I2. field.
  - transitivity (v * (1 * / 3 - / 6 * (sqrt (2 * / 5) * sqrt 10)))%R; [ring|]. rewrite I3. field.
  - transitivity (v * (1 * / 3 + sqrt (1 * / 2) * (1 * / sqrt 2) + / 6 * (sqrt (1 * / 10) * sqrt 10)))%R; [ring|]. rewrite I1, I2. field.
Qed.

(** * Final forms *)
Lemma round_trip : forall sp ss s0 s1 s2 pp nn pn c, rsectors_ok sp ss -> ss = [s0; s1; s2] -> rblocks_ok sp s0 pp -> rblocks_ok sp s0 nn -> rblocks_ok sp s0 pn ->
  comps_ok sp ss c -> zero_comps sp ss c -> exists c', accumulate sp s0 [pp; nn; pn] c = Ok c' /\ comps_ok sp ss c'
  /\ forall q0 q1 q2 b k xb xk x y, nth_error s0 q0 = Some (b, k) -> nth_error s1 q1 = Some (b, k) -> nth_error s2 q2 = Some (b, k) -> nth_error sp b = Some xb -> nth_error sp k = Some xk ->
     r_T xb = 1 -> r_T xk = 1 -> (x < rdim sp b)%nat -> (y < rdim sp k)%nat -> forall sp', (sp' < 3)%nat ->
     (branched (species_Tz sp') (cent c' 0 q0 x y) (cent c' 1 q1 x y) (cent c' 2 q2 x y) = entry_of (nth sp' [pp; nn; pn] []) q0 x y)%R.
Proof.
  intros sp ss s0 s1 s2 pp nn pn c Hss Ess H1 H2 H3 Hc Hz. assert (Hs0 : nth_error ss 0 = Some s0) by (rewrite Ess; reflexivity).
  destruct (accumulate_value sp ss s0 pp nn pn c Hss Hs0 H1 H2 H3 Hc Hz) as (c' & E & Hc' & A). exists c'. split; [exact E|]. split; [exact Hc'|].
  intros q0 q1 q2 b k xb xk x y Q0 Q1 Q2 Hb Hk Tb Tk Hx Hy sp' Hsp.
  assert (I : forall s q, nth_error s q = Some (b, k) -> in_sector sp s q x y) by (intros s q Hq; exists b, k; auto).
  rewrite (A 0%nat s0 q0 q0 b k xb xk x y) by (try assumption; auto). rewrite (A 1%nat s1 q1 q0 b k xb xk x y) by (try assumption; auto; rewrite Ess; reflexivity).
  rewrite (A 2%nat s2 q2 q0 b k xb xk x y) by (try assumption; auto; rewrite Ess; reflexivity). rewrite Tb, Tk. cbn [Z.eqb Pos.eqb negb].
  pose proof (tables_inverse sp' (entry_of pp q0 x y) (entry_of nn q0 x y) (entry_of pn q0 x y) Hsp) as T. unfold branched. cbn [lsum] in T.
  change (Z.to_nat 0) with 0%nat in T. change (Z.to_nat 1) with 1%nat in T. change (Z.to_nat 2) with 2%nat in T.
  rewrite <- Rplus_assoc in T. rewrite Rplus_0_r in T. rewrite T. destruct sp' as [|[|[|sp']]]; try reflexivity. lia.
Qed.
Lemma round_trip_T0 : forall sp ss s0 s1 s2 pp nn pn c, rsectors_ok sp ss -> ss = [s0; s1; s2] -> rblocks_ok sp s0 pp -> rblocks_ok sp s0 nn -> rblocks_ok sp s0 pn ->
  comps_ok sp ss c -> zero_comps sp ss c -> exists c', accumulate sp s0 [pp; nn; pn] c = Ok c'
  /\ forall q0 b k xb xk x y, nth_error s0 q0 = Some (b, k) -> nth_error sp b = Some xb -> nth_error sp k = Some xk -> r_T xb = 0 -> r_T xk = 0 -> (x < rdim sp b)%nat -> (y < rdim sp k)%nat ->
     cent c' 0 q0 x y = entry_of pn q0 x y.
Proof.
  intros sp ss s0 s1 s2 pp nn pn c Hss Ess H1 H2 H3 Hc Hz. assert (Hs0 : nth_error ss 0 = Some s0) by (rewrite Ess; reflexivity).
  destruct (accumulate_value sp ss s0 pp nn pn c Hss Hs0 H1 H2 H3 Hc Hz) as (c' & E & Hc' & A). exists c'. split; [exact E|].
  intros q0 b k xb xk x y Q0 Hb Hk Tb Tk Hx Hy. rewrite (A 0%nat s0 q0 q0 b k xb xk x y); try assumption; [|exists b, k; auto]. rewrite Tb, Tk. reflexivity.
Qed.
Lemma coulomb_single : forall radial t Nmax sp s0 s1 s2 c, t <> OpTotal -> nmax_ok Nmax sp -> (forall s b k, In s [s0; s1; s2] -> In (b, k) s -> (b < length sp)%nat /\ (k < length sp)%nat) ->
  comps_ok sp [s0; s1; s2] c -> zero_comps sp [s0; s1; s2] c ->
  exists c', coulomb radial t Nmax 0 0 0 2 sp c = Ok c' /\ comps_ok sp [s0; s1; s2] c'
  /\ forall q0 q1 q2 b k xk x y, nth_error s0 q0 = Some (b, k) -> nth_error s1 q1 = Some (b, k) -> nth_error s2 q2 = Some (b, k) -> nth_error sp k = Some xk ->
     (x < rdim sp b)%nat -> (y < rdim sp k)%nat -> r_T xk = 1 -> forall Tz, Z.abs Tz <= 1 ->
     branched Tz (cent c' 0 q0 x y) (cent c' 1 q1 x y) (cent c' 2 q2 x y) =
       if Nat.eqb b k && (Tz =? match t with OpP => 1 | _ => -1 end) then (1 / sqrt 2 * radial (Z.of_nat x) (Z.of_nat y) (r_L xk))%R else 0%R.
Proof.
  intros radial t Nmax sp s0 s1 s2 c Ht Hnm Hb Hc Hz. destruct (coulomb_ok radial t Nmax 0 2 sp [s0; s1; s2] c Hnm eq_refl Hb) as (c' & E & Hc' & A); try assumption; try lia.
  exists c'. split; [exact E|]. split; [exact Hc'|]. intros q0 q1 q2 b k xk x y Q0 Q1 Q2 Hk Hx Hy HT Tz HTz.
  assert (I : forall s q, nth_error s q = Some (b, k) -> in_sector sp s q x y) by (intros s q Hq; exists b, k; auto).
  rewrite (A 0%nat s0 q0 b k xk x y eq_refl Q0 Hk (I _ _ Q0)), (A 1%nat s1 q1 b k xk x y eq_refl Q1 Hk (I _ _ Q1)), (A 2%nat s2 q2 b k xk x y eq_refl Q2 Hk (I _ _ Q2)).
  rewrite HT. cbn [Z.of_nat Z.leb Z.compare Pos.compare Pos.compare_cont Pos.of_succ_nat Pos.succ andb]. unfold branched. destruct (Nat.eqb b k); cbn [andb]; [apply coulomb_branch; assumption|ring].
Qed.
Lemma coulomb_singlet : forall radial t Nmax sp s0 s1 s2 c, t <> OpTotal -> nmax_ok Nmax sp -> (forall s b k, In s [s0; s1; s2] -> In (b, k) s -> (b < length sp)%nat /\ (k < length sp)%nat) ->
  comps_ok sp [s0; s1; s2] c -> zero_comps sp [s0; s1; s2] c ->
  exists c', coulomb radial t Nmax 0 0 0 2 sp c = Ok c'
  /\ forall T0 s q b k xk x y, nth_error [s0; s1; s2] T0 = Some s -> nth_error s q = Some (b, k) -> nth_error sp k = Some xk -> (x < rdim sp b)%nat -> (y < rdim sp k)%nat -> r_T xk <> 1 -> cent c' T0 q x y = 0%R.
Proof.
  intros radial t Nmax sp s0 s1 s2 c Ht Hnm Hb Hc Hz. destruct (coulomb_ok radial t Nmax 0 2 sp [s0; s1; s2] c Hnm eq_refl Hb) as (c' & E & Hc' & A); try assumption; try lia.
  exists c'. split; [exact E|]. intros T0 s q b k xk x y Hs Q Hk Hx Hy HT. rewrite (A T0 s q b k xk x y Hs Q Hk); [|exists b, k; auto].
  destruct (_ && _); [|reflexivity]. apply Z.eqb_neq in HT. destruct t; [| |congruence]; unfold coulomb_value; rewrite HT; reflexivity.
Qed.
Lemma coulomb_total : forall radial Nmax sp s0 s1 s2 c, nmax_ok Nmax sp -> (forall s b k, In s [s0; s1; s2] -> In (b, k) s -> (b < length sp)%nat /\ (k < length sp)%nat) ->
  comps_ok sp [s0; s1; s2] c -> zero_comps sp [s0; s1; s2] c ->
  exists c', coulomb radial OpTotal Nmax 0 0 0 0 sp c = Ok c'
  /\ forall q b k xk x y, nth_error s0 q = Some (b, k) -> nth_error sp k = Some xk -> (x < rdim sp b)%nat -> (y < rdim sp k)%nat ->
     cent c' 0 q x y = if Nat.eqb b k then (1 / sqrt 2 * radial (Z.of_nat x) (Z.of_nat y) (r_L xk))%R else 0%R.
Proof.
  intros radial Nmax sp s0 s1 s2 c Hnm Hb Hc Hz. destruct (coulomb_ok radial OpTotal Nmax 0 0 sp [s0; s1; s2] c Hnm eq_refl Hb) as (c' & E & Hc' & A); try assumption; try lia.
  exists c'. split; [exact E|]. intros q b k xk x y Q Hk Hx Hy. rewrite (A 0%nat s0 q b k xk x y eq_refl Q Hk); [|exists b, k; auto]. cbn. destruct (Nat.eqb b k); reflexivity.
Qed.

Lemma coulomb_labels : forall radial t Nmax J0 g0 T0_min T0_max sp zero, J0 <> 0 \/ g0 <> 0 -> coulomb radial t Nmax J0 g0 T0_min T0_max sp zero = AssertFail.
Proof.
  intros radial t Nmax J0 g0 T0_min T0_max sp zero H. unfold coulomb. destruct (Z.eqb_spec J0 0); [|reflexivity]. destruct (Z.eqb_spec g0 0); [lia|reflexivity].
Qed.
