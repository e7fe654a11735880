(** Proofs about TrfModel.v: sectors, components, and the three steps. *)
From Coq Require Import List ZArith Reals Bool Lia Lra.
From Verif Require Import Base BaseLemmas RMat OscModel OscFinal BlockModel BlockProof ObioModel ObioFinal MoshModel JpvModel JpvSpec JpvProof IsoModel XformFinal TrfModel TrfSpec.
Import ListNotations.
Open Scope Z_scope.

Lemma couplesb_ok : forall a b c, couplesb a b c = true <-> couples a b c.
Proof. intros a b c. unfold couplesb, couples. rewrite andb_true_iff, !Z.leb_le. tauto. Qed.
Lemma couplesb_at : forall a b c, couplesb a b c = allowed_triangle a b c.
Proof. reflexivity. Qed.
Lemma couples_sym : forall a b c, couples a b c -> couples b a c.
Proof. unfold couples. intros. lia. Qed.
Lemma couples_rot : forall a b c, couples a b c -> couples c b a.
Proof. unfold couples. intros. lia. Qed.

(** * sectors *)
Lemma jt_allowed_rule : forall A (J T g : A -> Z) J0 T0 g0 b k,
  jt_allowed J T g J0 T0 g0 b k = true <-> jt_rule J0 T0 g0 (J b) (T b) (g b) (J k) (T k) (g k).
Proof.
  intros. unfold jt_allowed, jt_rule. rewrite !andb_true_iff. rewrite <- !couplesb_at, !couplesb_ok. tauto.
Qed.
Lemma nodup_filter : forall A (f : A -> bool) l, NoDup l -> NoDup (filter f l).
Proof. intros. apply NoDup_filter. assumption. Qed.
Lemma jt_sectors_nodup : forall A (J T g : A -> Z) sp J0 T0 g0, NoDup (jt_sectors J T g sp J0 T0 g0).
Proof. intros. unfold jt_sectors. apply NoDup_filter. apply (NoDup_pairs (length sp) (length sp)). Qed.
Lemma jt_sectors_in : forall A (J T g : A -> Z) sp J0 T0 g0 i k, In (i, k) (jt_sectors J T g sp J0 T0 g0) <->
  (i <= k)%nat /\ exists x y, nth_error sp i = Some x /\ nth_error sp k = Some y /\ jt_rule J0 T0 g0 (J x) (T x) (g x) (J y) (T y) (g y).
Proof.
  intros. unfold jt_sectors. rewrite filter_In. cbn [fst snd]. rewrite andb_true_iff, Nat.leb_le.
  change (list_prod (seq 0 (length sp)) (seq 0 (length sp))) with (pairs (length sp) (length sp)). rewrite in_pairs. split.
  - intros [_ [Hle H]]. split; [exact Hle|]. destruct (nth_error sp i) as [x|]; [|discriminate]. destruct (nth_error sp k) as [y|]; [|discriminate].
    exists x, y. split; [reflexivity|]. split; [reflexivity|]. apply jt_allowed_rule. exact H.
  - intros [Hle (x & y & Hx & Hy & H)]. rewrite Hx, Hy. split.
    + split; apply nth_error_Some; congruence.
    + split; [exact Hle|]. apply jt_allowed_rule. exact H.
Qed.

(** * components *)
Lemma store_some : forall A (v : list A) i x, (i < length v)%nat -> exists v', store v i x = Ok v' /\ length v' = length v
  /\ nth_error v' i = Some x /\ forall j, j <> i -> nth_error v' j = nth_error v j.
Proof.
  intros A v. induction v as [|y v IH]; intros i x Hi; [cbn in Hi; lia|]. destruct i as [|i].
  - exists (x :: v). repeat split. intros [|j] Hj; [lia|reflexivity].
  - cbn in Hi. destruct (IH i x ltac:(lia)) as (v' & E & El & En & Eo). exists (y :: v'). cbn. rewrite E. cbn.
    split; [reflexivity|]. split; [rewrite El; reflexivity|]. split; [exact En|]. intros [|j] Hj; [reflexivity|]. cbn. apply Eo. lia.
Qed.
Lemma components_loop : forall (f : Z -> outcome (lsectors * blocks R)) (P : Z -> lsectors * blocks R -> Prop) l c,
  NoDup l -> length c = 3%nat -> (forall T0, In T0 l -> 0 <= T0 <= 2 /\ exists p, f T0 = Ok p /\ P T0 p) ->
  exists c', for_each l (fun T0 c => bind (f T0) (fun p => if T0 <? 0 then UB else store c (Z.to_nat T0) p)) c = Ok c' /\ length c' = 3%nat
  /\ (forall T0, In T0 l -> exists p, nth_error c' (Z.to_nat T0) = Some p /\ P T0 p)
  /\ (forall T0, 0 <= T0 -> ~ In T0 l -> nth_error c' (Z.to_nat T0) = nth_error c (Z.to_nat T0)).
Proof.
  intros f P l. induction l as [|t l IH]; intros c Hn Hc H.
  - exists c. repeat split; auto. intros T0 [].
  - inversion Hn as [|? ? Hnin Hn']; subst. destruct (H t (or_introl eq_refl)) as [Ht (p & Ep & Hp)].
    destruct (store_some _ c (Z.to_nat t) p ltac:(lia)) as (c1 & E1 & L1 & N1 & O1).
    destruct (IH c1 Hn' ltac:(lia)) as (c' & E & L' & Hin & Hout); [intros; apply H; right; assumption|].
    exists c'. cbn [for_each]. rewrite Ep. cbn [bind]. rewrite (proj2 (Z.ltb_ge t 0)) by lia. rewrite E1. cbn [bind].
    split; [exact E|]. split; [exact L'|]. split.
    + intros T0 [->|Hi]; [|auto]. exists p. split; [|exact Hp]. rewrite (Hout T0 ltac:(lia) Hnin). exact N1.
    + intros T0 H0 Hni. rewrite Hout by (auto; intros Hi; apply Hni; right; exact Hi). apply O1.
      intros He. apply Hni. left. lia.
Qed.
Lemma components_ok : forall o f (P : Z -> lsectors * blocks R -> Prop), 0 <= o_T0_min o -> o_T0_max o <= 2 ->
  (forall T0, in_range o T0 -> exists p, f T0 = Ok p /\ P T0 p) ->
  exists c', for_components o f no_components = Ok c' /\ forall T0, in_range o T0 -> exists p, nth_error c' (Z.to_nat T0) = Some p /\ P T0 p.
Proof.
  intros o f P H0 H2 H. destruct (components_loop f P (zrange (o_T0_min o) (o_T0_max o)) no_components) as (c' & E & _ & Hin & _).
  - apply NoDup_zrange.
  - reflexivity.
  - intros T0 Hi. apply in_zrange in Hi. split; [lia|]. apply H. exact Hi.
  - exists c'. split; [exact E|]. intros T0 Hr. apply Hin. apply in_zrange. exact Hr.
Qed.
(** a component filled sector by sector *)
Lemma fill_component : forall A B (J T g : A -> Z) (sp : list (A * list B)) (o : oplab) (G : Z -> A -> B -> A -> B -> R) (src : components)
  (body : Z -> lsectors -> blocks R -> nat * nat -> outcome (mat R)),
  0 <= o_T0_min o -> o_T0_max o <= 2 ->
  (forall T0, in_range o T0 -> exists sectors ms, nth_error src (Z.to_nat T0) = Some (sectors, ms) /\
     forall i k x y, (i <= k)%nat -> nth_error sp i = Some x -> nth_error sp k = Some y ->
     jt_rule (o_J0 o) T0 (o_g0 o) (J (fst x)) (T (fst x)) (g (fst x)) (J (fst y)) (T (fst y)) (g (fst y)) ->
     exists m, body T0 sectors ms (i, k) = Ok m /\ rows m = length (snd x) /\ cols m = length (snd y)
     /\ forall u v a b, nth_error (snd x) u = Some a -> nth_error (snd y) v = Some b -> at_ m u v = G T0 (fst x) a (fst y) b) ->
  exists c', for_components o (fun T0 =>
      let s := jt_sectors (fun x => J (fst x)) (fun x => T (fst x)) (fun x => g (fst x)) sp (o_J0 o) T0 (o_g0 o) in
      bind (at_z src T0) (fun x => match x with (sectors, ms) =>
      bind (map_blocks (body T0 sectors ms) s) (fun r => Ok (s, r)) end)) no_components = Ok c'
  /\ stores J T g sp o c' G.
Proof.
  intros A B J T g sp o G src body H0 H2 H.
  match goal with |- exists c', for_components o ?f no_components = _ /\ _ => set (fc := f) end.
  set (P := fun T0 (p : lsectors * blocks R) => NoDup (fst p)
    /\ (forall i k, In (i, k) (fst p) <-> (i <= k)%nat /\ exists x y, nth_error sp i = Some x /\ nth_error sp k = Some y
        /\ jt_rule (o_J0 o) T0 (o_g0 o) (J (fst x)) (T (fst x)) (g (fst x)) (J (fst y)) (T (fst y)) (g (fst y)))
    /\ (forall q i k x y, nth_error (fst p) q = Some (i, k) -> nth_error sp i = Some x -> nth_error sp k = Some y ->
        exists m, nth_error (snd p) q = Some m /\ rows m = length (snd x) /\ cols m = length (snd y)
        /\ forall u v a b, nth_error (snd x) u = Some a -> nth_error (snd y) v = Some b -> at_ m u v = G T0 (fst x) a (fst y) b)).
  destruct (components_ok o fc P H0 H2) as (c' & E & Hc).
  - intros T0 Hr. destruct (H T0 Hr) as (sectors & ms & Hsrc & Hbody). unfold fc, at_z.
    rewrite (proj2 (Z.ltb_ge T0 0)) by (unfold in_range in Hr; lia). rewrite Hsrc. cbn [get bind].
    set (s := jt_sectors _ _ _ sp _ _ _) in *.
    assert (Hok : forall x, In x s -> exists m, body T0 sectors ms x = Ok m).
    { intros [i k] Hx. apply jt_sectors_in in Hx. destruct Hx as [Hle (x & y & Hx & Hy & Hj)].
      destruct (Hbody i k x y Hle Hx Hy Hj) as (m & Em & _). eauto. }
    destruct (map_blocks_ok _ _ (body T0 sectors ms) s Hok) as (r & Er & _ & Hr2).
    exists (s, r). rewrite Er. split; [reflexivity|]. unfold P. cbn [fst snd]. split; [apply jt_sectors_nodup|]. split; [intros i k; apply jt_sectors_in|].
    intros q i k x y Hq Hx Hy. pose proof (nth_error_In _ _ Hq) as Hin. apply jt_sectors_in in Hin. destruct Hin as [Hle (x' & y' & Hx' & Hy' & Hj)].
    rewrite Hx in Hx'. injection Hx' as <-. rewrite Hy in Hy'. injection Hy' as <-.
    destruct (Hbody i k x y Hle Hx Hy Hj) as (m & Em & Hm). exists m. split; [|exact Hm].
    pose proof (Hr2 q (i, k) Hq) as Hl.
    destruct Hl as (m' & Hm' & Em'). rewrite Em in Em'. injection Em' as <-. exact Hm'.
  - exists c'. split; [exact E|]. intros T0 Hr. destruct (Hc T0 Hr) as ([sectors ms] & Hn & HP). exists sectors, ms. split; [exact Hn|]. exact HP.
Qed.

(** * relative to relative-cm *)
Lemma rel_state_ok : forall x Nmax N, osc N (r_L x) -> N <= Nmax -> Z.of_nat (r_dim x) = (Nmax - r_L x) / 2 + 1 ->
  exists u, rel_state x N = Some u /\ (u < r_dim x)%nat /\ r_L x + 2 * Z.of_nat u = N.
Proof.
  intros x Nmax N [Hl He] HN Hd. exists (Z.to_nat ((N - r_L x) / 2)).
  apply Z.even_spec in He. destruct He as [h Hh]. assert (E : (N - r_L x) / 2 = h) by (rewrite Hh, Z.mul_comm, Z.div_mul; lia).
  assert (Hm : (N - r_L x) / 2 <= (Nmax - r_L x) / 2) by (apply Z.div_le_mono; lia).
  unfold rel_state. rewrite (proj2 (Z.leb_le _ _)) by lia. rewrite (proj2 (Z.even_spec _)) by (exists h; exact Hh).
  rewrite (proj2 (Z.ltb_lt _ _)) by lia. split; [reflexivity|]. rewrite E in *. split; lia.
Qed.
Lemma rem_mod2 : forall l, 0 <= l -> Z.rem l 2 = l mod 2.
Proof. intros. apply Z.rem_mod_nonneg; lia. Qed.
Lemma even_mod2 : forall a b c, Z.even (a mod 2 + b + c mod 2) = Z.even (a + b + c).
Proof.
  intros a b c. rewrite !Z.even_add.
  assert (H : forall z, Z.even (z mod 2) = Z.even z). { intros z. rewrite (Z.div_mod z 2) at 2 by lia. rewrite Z.even_add, Z.even_mul. cbn. destruct (Z.even (z mod 2)); reflexivity. }
  rewrite !H. reflexivity.
Qed.
Lemma osc_even : forall N l, osc N l -> Z.even N = Z.even l.
Proof. intros N l [_ H]. rewrite Z.even_sub in H. destruct (Z.even N), (Z.even l); try reflexivity; discriminate. Qed.
Lemma min_max_cases : forall i k, (Nat.ltb k i = true /\ Nat.min i k = k /\ Nat.max i k = i /\ (k < i)%nat)
  \/ (Nat.ltb k i = false /\ Nat.min i k = i /\ Nat.max i k = k /\ (i <= k)%nat).
Proof. intros i k. destruct (Nat.ltb_spec k i); [left|right]; repeat split; lia. Qed.
Lemma couples_parts : forall l s j, 0 <= l -> couples l s j -> 0 <= j.
Proof. unfold couples. intros. lia. Qed.
Lemma lsum_cond_range : forall lo hi n (P : Z -> bool) (f : Z -> R), 0 <= lo -> (forall j, 0 <= j -> P j = true <-> lo <= j <= hi) ->
  lsum (zrange lo hi) (fun j => if j <=? n then f j else 0%R) = lsum (zrange 0 n) (fun j => if P j then f j else 0%R).
Proof.
  intros lo hi n P f Hlo HP.
  rewrite <- (lsum_filter Z (fun j => j <=? n)), <- (lsum_filter Z P).
  apply lsum_nodup_eq; try (apply NoDup_filter, NoDup_zrange). intros j. rewrite !filter_In, !in_zrange, Z.leb_le. split.
  - intros [H1 H2]. split; [lia|]. apply HP; lia.
  - intros [H1 H2]. apply HP in H2; lia.
Qed.
Lemma in_jr_range : forall lc J lr S j, In j (jr_range lc J lr S) <-> couples lc J j /\ couples lr S j.
Proof. intros. unfold jr_range, couples. rewrite in_zrange. lia. Qed.

Section Relcm.
Variable u6jz : Z -> Z -> Z -> Z -> Z -> Z -> R.
Variable racah1 : Z -> Z -> Z -> Z -> Z -> Z -> Z -> R.
Variable flip : Z -> Z -> Z -> Z -> Z -> R.
Variable rs : relspace.
Variable o : oplab.
Variable c : components.
Variable F : Z -> rlab -> Z -> rlab -> Z -> R.
Hypothesis Hrs : rel_complete rs.
Hypothesis Hst : stores_rel rs o c F.
Hypothesis Hh : hermitian_rel flip F.
Hypothesis Hf : flip_ok flip.

Lemma relcm_term_ok : forall T0 sectors ms x Nr lr Nc lc y Nr' lr' Jb Jk acc, in_range o T0 -> nth_error c (Z.to_nat T0) = Some (sectors, ms) ->
  lab_ok x -> lab_ok y -> cm_state x (Nr, lr, Nc, lc) -> cm_state y (Nr', lr', Nc, lc) ->
  couples (b_T x) T0 (b_T y) -> Z.even (b_g x + o_g0 o + b_g y) = true ->
  Nr <= rel_Nmax rs -> Nr' <= rel_Nmax rs -> couples lr (b_S x) Jb -> couples lr' (b_S y) Jk ->
  relcm_term u6jz racah1 flip rs sectors ms (o_J0 o) T0 x (Nr, lr, Nc, lc) y (Nr', lr', Nc, lc) Jb Jk acc
  = Ok (acc + (if Jb <=? rel_Jmax rs then if Jk <=? rel_Jmax rs then if couplesb Jb (o_J0 o) Jk then
      u6jz lr lc (b_L x) (b_J x) (b_S x) Jb * u6jz lr' lc (b_L y) (b_J y) (b_S y) Jk * racah1 Jb lc (b_J x) Jk lc (b_J y) (o_J0 o)
      * F T0 (lr, b_S x, Jb, b_T x) Nr (lr', b_S y, Jk, b_T y) Nr' else 0 else 0 else 0))%R.
Proof.
  intros T0 sectors ms x Nr lr Nc lc y Nr' lr' Jb Jk acc Hr Hc Hx Hy Sx Sy HT Hg HN HN' HJb HJk.
  destruct Sx as (Or & Oc & EN & _ & Hodd). destruct Sy as (Or' & _ & EN' & _ & Hodd').
  destruct Hx as (_ & HSx & HTx & _ & Hgx). destruct Hy as (_ & HSy & HTy & _ & Hgy).
  unfold relcm_term. destruct (Z.leb_spec (Z.max Jb Jk) (rel_Jmax rs)) as [Hmax|Hmax]; cbn [negb].
  2:{ destruct (Z.leb_spec Jb (rel_Jmax rs)); [|rewrite Rplus_0_r; reflexivity]. destruct (Z.leb_spec Jk (rel_Jmax rs)); [lia|]. rewrite Rplus_0_r. reflexivity. }
  rewrite !(proj2 (Z.leb_le _ (rel_Jmax rs))) by lia. rewrite <- couplesb_at. destruct (couplesb Jb (o_J0 o) Jk) eqn:HJ; cbn [negb]; [|rewrite Rplus_0_r; reflexivity].
  apply couplesb_ok in HJ. destruct Hrs as [Hok Hcomp].
  pose proof Or as [Hl _]. pose proof Or' as [Hl' _].
  destruct (Hcomp lr (b_S x) Jb (b_T x) ltac:(lia) HSx HJb ltac:(lia) HTx Hodd) as (xb & Hxb & Lxb & Dxb).
  destruct (Hcomp lr' (b_S y) Jk (b_T y) ltac:(lia) HSy HJk ltac:(lia) HTy Hodd') as (xk & Hxk & Lxk & Dxk).
  apply In_nth_error in Hxb, Hxk. destruct Hxb as [ib Hib]. destruct Hxk as [ik Hik].
  rewrite !rem_mod2 by lia. rewrite (find_sub_ok _ _ _ _ _ _ _ _ Hok Hib Lxb). rewrite (find_sub_ok _ _ _ _ _ _ _ _ Hok Hik Lxk). cbn [get bind].
  rewrite Hib, Hik. cbn [get bind].
  unfold labels_of in Lxb, Lxk. injection Lxb as L1 L2 L3 L4 L5. injection Lxk as K1 K2 K3 K4 K5.
  destruct (rel_state_ok xb (rel_Nmax rs) Nr) as (u & Eu & Hu & EuN); [rewrite L1; exact Or|exact HN|rewrite L1; exact Dxb|].
  destruct (rel_state_ok xk (rel_Nmax rs) Nr') as (v & Ev & Hv & EvN); [rewrite K1; exact Or'|exact HN'|rewrite K1; exact Dxk|].
  assert (Hpar : Z.even (lr mod 2 + o_g0 o + lr' mod 2) = true).
  { rewrite Hgx, Hgy in Hg. rewrite even_mod2 in *. rewrite <- EN, <- EN' in Hg.
    rewrite !Z.even_add in *. rewrite (osc_even _ _ Or), (osc_even _ _ Or') in Hg.
    destruct (Z.even lr), (Z.even lr'), (Z.even (o_g0 o)), (Z.even Nc); cbn in *; congruence. }
  destruct (Hst T0 Hr) as (sectors' & ms' & Hc' & Hnd & Hsec). rewrite Hc in Hc'. injection Hc' as <- <-.
  destruct (min_max_cases ib ik) as [(El & -> & -> & Hlt)|(El & -> & -> & Hle)].
  - destruct (Hsec ik ib xk xb ltac:(lia) Hik Hib) as (q & m & Hq & Hm & Rm & Cm & Hat).
    { rewrite L3, L4, L5, K3, K4, K5. unfold jt_rule. split; [apply couples_rot; exact HJ|]. split; [apply couples_rot; exact HT|].
      rewrite <- Hpar. f_equal. lia. }
    rewrite (look_up_ok _ _ _ _ Hnd Hq). cbn [get bind]. rewrite Hm. cbn [get bind]. rewrite Eu, Ev. unfold canonicalize. rewrite El.
    unfold mat_at. rewrite Rm, Cm, !(proj2 (Nat.ltb_lt _ _)) by assumption. cbn [andb cassert bind].
    rewrite Hat by (auto). unfold rl. rewrite EuN, EvN. f_equal. f_equal. f_equal.
    rewrite (Hh T0 (lr, b_S x, Jb, b_T x) Nr) by (cbn [rl_J rl_T]; unfold couples in *; lia). cbn [rl_J rl_T]. f_equal. f_equal; congruence.
  - destruct (Hsec ib ik xb xk Hle Hib Hik) as (q & m & Hq & Hm & Rm & Cm & Hat).
    { rewrite L3, L4, L5, K3, K4, K5. unfold jt_rule. auto. }
    rewrite (look_up_ok _ _ _ _ Hnd Hq). cbn [get bind]. rewrite Hm. cbn [get bind]. rewrite Eu, Ev. unfold canonicalize. rewrite El.
    destruct (Nat.eqb_spec ib ik) as [Heq|Hne]; cbn [andb].
    + subst ik. rewrite Hib in Hik. injection Hik as <-. destruct (Nat.ltb_spec v u) as [Hvu|Huv]; unfold mat_at.
      * rewrite Rm, Cm, !(proj2 (Nat.ltb_lt _ _)) by assumption. cbn [andb cassert bind].
        rewrite Hat by (auto; right; lia). unfold rl. rewrite Rmult_1_l. f_equal. f_equal. f_equal. 
        rewrite (Hh T0 (lr, b_S x, Jb, b_T x) Nr) by (cbn [rl_J rl_T]; unfold couples in *; lia). cbn [rl_J rl_T]. replace Jk with Jb by congruence. replace (b_T y) with (b_T x) by congruence.
        rewrite Hf by (unfold couples in HJb; lia). rewrite Rmult_1_l. rewrite EuN, EvN. f_equal; congruence.
      * rewrite Rm, Cm, !(proj2 (Nat.ltb_lt _ _)) by assumption. cbn [andb cassert bind].
        rewrite Hat by (auto). unfold rl. rewrite Rmult_1_l. f_equal. f_equal. f_equal. rewrite EuN, EvN. f_equal; congruence.
    + unfold mat_at. rewrite Rm, Cm, !(proj2 (Nat.ltb_lt _ _)) by assumption. cbn [andb cassert bind].
      rewrite Hat by (auto; left; lia). unfold rl. rewrite Rmult_1_l. f_equal. f_equal. f_equal. rewrite EuN, EvN. f_equal; congruence.
Qed.
Lemma relcm_element_ok : forall T0 sectors ms x p y q, in_range o T0 -> nth_error c (Z.to_nat T0) = Some (sectors, ms) ->
  lab_ok x -> lab_ok y -> cm_state x p -> cm_state y q ->
  couples (b_T x) T0 (b_T y) -> Z.even (b_g x + o_g0 o + b_g y) = true -> b_N x <= rel_Nmax rs -> b_N y <= rel_Nmax rs ->
  relcm_element u6jz racah1 flip rs sectors ms (o_J0 o) T0 x p y q = Ok (relcm_rme u6jz racah1 (rel_Jmax rs) (o_J0 o) F T0 x p y q).
Proof.
  intros T0 sectors ms x [[[Nr lr] Nc] lc] y [[[Nr' lr'] Nc'] lc'] Hr Hc Hx Hy Sx Sy HT Hg HN HN'.
  unfold relcm_element, relcm_rme. destruct (Z.eqb_spec Nc Nc') as [<-|]; cbn [andb negb]; [|reflexivity].
  destruct (Z.eqb_spec lc lc') as [<-|]; cbn [andb negb]; [|reflexivity].
  assert (HNr : Nr <= rel_Nmax rs). { destruct Sx as (_ & [? _] & ? & _). lia. }
  assert (HNr' : Nr' <= rel_Nmax rs). { destruct Sy as (_ & [? _] & ? & _). lia. }
  rewrite (proj2 (Z.leb_le _ _)) by lia. cbn [cassert bind].
  assert (Hl : 0 <= lr /\ 0 <= lr'). { destruct Sx as ([? _] & _). destruct Sy as ([? _] & _). lia. }
  set (t := fun Jb Jk => (u6jz lr lc (b_L x) (b_J x) (b_S x) Jb * u6jz lr' lc (b_L y) (b_J y) (b_S y) Jk * racah1 Jb lc (b_J x) Jk lc (b_J y) (o_J0 o)
      * F T0 (lr, b_S x, Jb, b_T x) Nr (lr', b_S y, Jk, b_T y) Nr')%R).
  rewrite (for_each_sum _ _ _ (fun Jb => lsum (jr_range lc (b_J y) lr' (b_S y)) (fun Jk =>
    if Jb <=? rel_Jmax rs then if Jk <=? rel_Jmax rs then if couplesb Jb (o_J0 o) Jk then t Jb Jk else 0%R else 0%R else 0%R))).
  2:{ intros Jb acc Hb. apply in_jr_range in Hb. apply for_each_sum. intros Jk acc' Hk. apply in_jr_range in Hk.
      apply relcm_term_ok; tauto. }
  f_equal. rewrite Rplus_0_l.
  set (P := fun Jr => couplesb lr (b_S x) Jr && couplesb lc (b_J x) Jr). set (P' := fun Jr => couplesb lr' (b_S y) Jr && couplesb lc (b_J y) Jr).
  rewrite (lsum_ext _ _ _ (fun Jb => if Jb <=? rel_Jmax rs then lsum (zrange 0 (rel_Jmax rs)) (fun Jk => if P' Jk then if couplesb Jb (o_J0 o) Jk then t Jb Jk else 0%R else 0%R) else 0%R)).
  2:{ intros Jb _. destruct (Jb <=? rel_Jmax rs); [|apply lsum_0; reflexivity].
      apply lsum_cond_range; [lia|]. intros j _. unfold P'. rewrite andb_true_iff, !couplesb_ok. unfold couples. lia. }
  unfold jr_range at 1. rewrite (lsum_cond_range _ _ _ P); [|lia|intros j _; unfold P; rewrite andb_true_iff, !couplesb_ok; unfold couples; lia].
  apply lsum_ext. intros Jb _. destruct (P Jb) eqn:EP.
  - apply lsum_ext. intros Jk _. fold (P Jb) (P' Jk). rewrite EP. destruct (P' Jk); reflexivity.
  - symmetry. apply lsum_0. intros Jk _. fold (P Jb). rewrite EP. reflexivity.
Qed.
Lemma nth_some : forall A (l : list A) i, (i < length l)%nat -> exists x, nth_error l i = Some x.
Proof. intros A l i H. destruct (nth_error l i) eqn:E; [eauto|]. apply nth_error_None in E. lia. Qed.
(** filling a block by its states *)
Lemma fill_states : forall A B (l : list A) (k : list B) (el : A -> B -> outcome R) (g : A -> B -> R),
  (forall a b, In a l -> In b k -> el a b = Ok (g a b)) ->
  exists m, fill 0%R (length l) (length k) (fun i j => bind (get (nth_error l i)) (fun a => bind (get (nth_error k j)) (fun b => el a b))) = Ok m
  /\ rows m = length l /\ cols m = length k /\ forall u v a b, nth_error l u = Some a -> nth_error k v = Some b -> at_ m u v = g a b.
Proof.
  intros A B l k el g H.
  destruct (fill_ok R 0%R (length l) (length k) (fun i j => bind (get (nth_error l i)) (fun a => bind (get (nth_error k j)) (fun b => el a b)))
    (fun i j => match nth_error l i, nth_error k j with Some a, Some b => g a b | _, _ => 0%R end)) as (m & E & Er & Ec & Hat).
  - intros i j Hi Hj. destruct (nth_some _ l i Hi) as [a Ha]. destruct (nth_some _ k j Hj) as [b Hb]. rewrite Ha, Hb. cbn [get bind].
    apply H; eapply nth_error_In; eassumption.
  - exists m. split; [exact E|]. split; [exact Er|]. split; [exact Ec|]. intros u v a b Ha Hb. rewrite Hat; [rewrite Ha, Hb; reflexivity| |];
    apply nth_error_Some; congruence.
Qed.
Lemma to_relcm_ok : forall sp, 0 <= o_T0_min o -> o_T0_max o <= 2 -> cm_space sp -> Forall (fun x => b_N (fst x) <= rel_Nmax rs) sp ->
  exists c', to_relcm u6jz racah1 flip o rs c sp = Ok c' /\ stores_ls sp o c' (relcm_rme u6jz racah1 (rel_Jmax rs) (o_J0 o) F).
Proof.
  intros sp H0 H2 [_ Hsp] HN. rewrite Forall_forall in Hsp, HN.
  apply (fill_component _ _ b_J b_T b_g sp o _ c (fun T0 sectors ms x => bind (get (nth_error sp (fst x))) (fun b => bind (get (nth_error sp (snd x))) (fun k =>
    relcm_matrix u6jz racah1 flip rs sectors ms (o_J0 o) T0 b k)))); try assumption.
  intros T0 Hr. destruct (Hst T0 Hr) as (sectors & ms & Hc & _). exists sectors, ms. split; [exact Hc|].
  intros i k x y _ Hx Hy (_ & HT & Hg). cbn [fst snd]. change (@nth_error lssub sp i = Some x) in Hx. change (@nth_error lssub sp k = Some y) in Hy. rewrite Hx, Hy. cbn [get bind]. unfold relcm_matrix.
  pose proof (nth_error_In _ _ Hx) as Ix. pose proof (nth_error_In _ _ Hy) as Iy.
  destruct (Hsp x Ix) as (Lx & _ & Sx). destruct (Hsp y Iy) as (Ly & _ & Sy).
  apply fill_states. intros a b Ha Hb. apply relcm_element_ok; try assumption; try (apply HN; assumption); [apply Sx|apply Sy]; assumption.
Qed.
End Relcm.

(** * relative-cm to two-body *)
Lemma sand_states : forall A B (l : list A) (k : list B) U M V i j f g h,
  (forall u a, nth_error l u = Some a -> U u i = f a) -> (forall u v a b, nth_error l u = Some a -> nth_error k v = Some b -> M u v = g a b) ->
  (forall v b, nth_error k v = Some b -> V v j = h b) ->
  sand (length l) (length k) U M V i j = lsum l (fun a => lsum k (fun b => f a * g a b * h b))%R.
Proof.
  intros A B l k U M V i j f g h HU HM HV. rewrite lsum_swap.
  destruct k as [|b0 k']; [reflexivity|]. set (k := b0 :: k') in *. clearbody k. unfold sand.
  rewrite <- (rsum_nth _ b0 k). apply rsum_ext. intros v Hv. pose proof (nth_error_nth' k b0 Hv) as Ev. rewrite (HV _ _ Ev).
  rewrite lsum_scale_r. f_equal. destruct l as [|a0 l']; [reflexivity|]. set (l := a0 :: l') in *. clearbody l.
  rewrite <- (rsum_nth _ a0 l). apply rsum_ext. intros u Hu. pose proof (nth_error_nth' l a0 Hu) as Eu. rewrite (HU _ _ Eu), (HM _ _ _ _ Eu Ev). reflexivity.
Qed.
Lemma lab_eqb_ok : forall x y, lab_eqb x y = true <-> x = y.
Proof.
  intros [a b c d e f] [a' b' c' d' e' f']. unfold lab_eqb. cbn. rewrite !andb_true_iff, !Z.eqb_eq. split.
  - intros [[[[[-> ->] ->] ->] ->] ->]. reflexivity.
  - intros H. injection H as -> -> -> -> -> ->. tauto.
Qed.
Lemma find_ls_ok : forall sp i x l, NoDup (map fst sp) -> nth_error sp i = Some x -> fst x = l -> find_ls sp l = Some i.
Proof.
  intros sp i x l Hn Hx Hl. unfold find_ls. destruct (find_ix _ sp) as [i'|] eqn:E.
  - apply find_ix_some in E. destruct E as (x' & Hx' & Hh). apply lab_eqb_ok in Hh. f_equal.
    apply (NoDup_nth_error (map fst sp)); [exact Hn| |].
    + rewrite map_length. apply nth_error_Some. congruence.
    + erewrite !map_nth_error by eassumption. congruence.
  - exfalso. pose proof (find_ix_none _ _ _ E x (nth_error_In _ _ Hx)) as H. cbn beta in H. rewrite (proj2 (lab_eqb_ok _ _) Hl) in H. discriminate.
Qed.
Lemma cm_stateb_ok : forall x p, (let '(Nr, lr, Nc, lc) := p in 0 <= lr /\ 0 <= lc) -> cm_stateb x p = true <-> cm_state x p.
Proof.
  intros x [[[Nr lr] Nc] lc] [H H']. unfold cm_stateb, cm_state, osc. rewrite !andb_true_iff, !Z.leb_le, Z.eqb_eq, couplesb_ok. lia || tauto.
Qed.
Lemma cm_states_in : forall x p, In p (cm_states x) <-> cm_state x p.
Proof.
  intros x p. unfold cm_states, four. cbv zeta. rewrite filter_In. destruct p as [[[Nr lr] Nc] lc]. rewrite !in_prod_iff, !in_zrange. split.
  - intros [H Hs]. apply cm_stateb_ok; [lia|exact Hs].
  - intros H. pose proof H as H'. unfold cm_state, osc in H'. split; [lia|]. apply cm_stateb_ok; [lia|exact H].
Qed.
Lemma cm_states_nodup : forall x, NoDup (cm_states x).
Proof. intros x. unfold cm_states. apply NoDup_filter. repeat apply NoDup_list_prod; apply NoDup_zrange. Qed.
Lemma quot_div2 : forall N l, l <= N -> Z.quot (N - l) 2 = (N - l) / 2.
Proof. intros. apply Z.quot_div_nonneg; lia. Qed.

Section TwoBody.
Variable mosh : Z -> Z -> Z -> Z -> Z -> Z -> Z -> Z -> Z -> R.
Lemma mosh_matrix_ok : forall cm tb, fst cm = fst tb -> (forall p, In p (snd cm) -> cm_state (fst cm) p) -> (forall p, In p (snd tb) -> tb_state (fst tb) p) ->
  exists m, mosh_matrix mosh cm tb = Ok m /\ rows m = length (snd cm) /\ cols m = length (snd tb)
  /\ forall u v p a, nth_error (snd cm) u = Some p -> nth_error (snd tb) v = Some a -> at_ m u v = (sqrt 2 * bracket_of mosh (b_L (fst cm)) p a)%R.
Proof.
  intros cm tb E Hc Ht. unfold mosh_matrix. rewrite (proj2 (lab_eqb_ok _ _) E). cbn [cassert bind].
  apply (fill_states _ _ (snd cm) (snd tb) (fun a b => let '(Nr, lr, Nc, lc) := a in let '(N1, l1, N2, l2) := b in
    Ok (sqrt 2 * mosh (Z.quot (Nr - lr) 2) lr (Z.quot (Nc - lc) 2) lc (Z.quot (N1 - l1) 2) l1 (Z.quot (N2 - l2) 2) l2 (b_L (fst cm)))%R)).
  intros [[[Nr lr] Nc] lc] [[[N1 l1] N2] l2] Ha Hb. apply Hc in Ha. apply Ht in Hb. unfold cm_state, tb_state, osc in Ha, Hb.
  rewrite !quot_div2 by lia. reflexivity.
Qed.
Lemma to_two_body_ok : forall o cm c tb G, 0 <= o_T0_min o -> o_T0_max o <= 2 -> cm_space cm -> tb_space tb -> covers cm tb -> stores_ls cm o c G ->
  exists c', to_two_body mosh o cm c tb = Ok c' /\ stores_ls tb o c' (tb_rme mosh G).
Proof.
  intros o cm c tb G H0 H2 [Hnc Hcm] [Hnt Htb] Hcov Hst. rewrite Forall_forall in Hcm, Htb.
  apply (fill_component _ _ b_J b_T b_g tb o _ c (fun T0 sectors ms x => bind (get (nth_error tb (fst x))) (fun b => bind (get (nth_error tb (snd x))) (fun k =>
    bind (get (find_ls cm (fst b))) (fun ib => bind (get (find_ls cm (fst k))) (fun ik => bind (get (look_up_sector sectors ib ik)) (fun q =>
    bind (get (nth_error cm ib)) (fun cb => bind (get (nth_error cm ik)) (fun ck => bind (get (nth_error ms q)) (fun m => tb_matrix mosh cb ck b k m)))))))))); try assumption.
  intros T0 Hr. destruct (Hst T0 Hr) as (sectors & ms & Hc & Hnd & Hsec & Hel). exists sectors, ms. split; [exact Hc|].
  intros i k x y Hle Hx Hy Hj. cbn [fst snd]. change (@nth_error lssub tb i = Some x) in Hx. change (@nth_error lssub tb k = Some y) in Hy. rewrite Hx, Hy. cbn [get bind].
  destruct (Hcov i k x y Hle Hx Hy) as (ib & ik & xb & xk & Hle' & Hib & Hik & Eb & Ek).
  rewrite (find_ls_ok cm ib xb _ Hnc Hib Eb), (find_ls_ok cm ik xk _ Hnc Hik Ek). cbn [get bind].
  assert (Hin : In (ib, ik) sectors).
  { apply Hsec. split; [exact Hle'|]. exists xb, xk. rewrite Eb, Ek. auto. }
  apply In_nth_error in Hin. destruct Hin as [q Hq]. rewrite (look_up_ok _ _ _ _ Hnd Hq). cbn [get bind]. rewrite Hib, Hik. cbn [get bind].
  destruct (Hel q ib ik xb xk Hq Hib Hik) as (m & Hm & Rm & Cm & Hat). rewrite Hm. cbn [get bind].
  pose proof (nth_error_In _ _ Hx) as Ix. pose proof (nth_error_In _ _ Hy) as Iy. pose proof (nth_error_In _ _ Hib) as Ixb. pose proof (nth_error_In _ _ Hik) as Ixk.
  destruct (Htb x Ix) as (_ & _ & Sx). destruct (Htb y Iy) as (_ & _ & Sy). destruct (Hcm xb Ixb) as (_ & Nb & Sb). destruct (Hcm xk Ixk) as (_ & Nk & Sk).
  destruct (mosh_matrix_ok xb x Eb (fun p => proj1 (Sb p)) Sx) as (U & EU & RU & CU & HU).
  destruct (mosh_matrix_ok xk y Ek (fun p => proj1 (Sk p)) Sy) as (V & EV & RV & CV & HV).
  unfold tb_matrix. rewrite EU, EV. cbn [bind]. rewrite (sand_mm U m V _ _ RU Rm Cm RV). eexists. split; [reflexivity|]. cbn [rows cols at_].
  split; [exact CU|]. split; [exact CV|]. intros u v a b Ha Hb.
  rewrite (sand_states _ _ (snd xb) (snd xk) _ _ _ _ _ (fun p => (sqrt 2 * bracket_of mosh (b_L (fst xb)) p a)%R)
    (fun p q => G T0 (fst xb) p (fst xk) q) (fun q => (sqrt 2 * bracket_of mosh (b_L (fst xk)) q b)%R)).
  2:{ intros w p Hp. apply (HU _ _ _ _ Hp Ha). }
  2:{ intros w z p p' Hp Hp'. apply (Hat _ _ _ _ Hp Hp'). }
  2:{ intros w p Hp. apply (HV _ _ _ _ Hp Hb). }
  unfold tb_rme. rewrite Eb, Ek.
  rewrite (lsum_nodup_eq _ (snd xb) (cm_states (fst x))); [|exact Nb|apply cm_states_nodup|intros p; rewrite cm_states_in, Sb, Eb; tauto].
  rewrite <- lsum_scale. apply lsum_ext. intros p _.
  rewrite (lsum_nodup_eq _ (snd xk) (cm_states (fst y))); [|exact Nk|apply cm_states_nodup|intros p'; rewrite cm_states_in, Sk, Ek; tauto].
  rewrite <- lsum_scale. apply lsum_ext. intros p' _.
  rewrite <- (sqrt_sqrt 2) at 3 by lra. ring.
Qed.
End TwoBody.
