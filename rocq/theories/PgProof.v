(** Proofs about PgModel.v. *)
From Coq Require Import String List ZArith Reals Bool Lia Lra.
From Verif Require Import Base BaseLemmas RMat OscModel OscSpec OscFinal BlockModel BlockProof ObioModel MixModel MixProof MoshModel JpvModel JpvSpec JpvProof IsoModel IsoSpec IsoProof IsoFinal PnModel PnSpec PnProof PnFinal TrfModel TrfSpec TrfProof TrfFinal RmeModel RmeSpec RmeProof RmeFinal RelxModel RelxSpec RelxProof RgModel MosModel MosSpec MosFile RgnModel RgnSpec RgnInput RgnProof RgnFile RgnJpv RgnChain PgModel.
Import ListNotations.
Open Scope Z_scope.
Open Scope outcome_scope.

(** * Vocabulary *)
(** a line between states of the space *)
Definition line_between (sp : rspace) (p : pline) : Prop :=
  0 <= pl_np p /\ 0 <= pl_n p /\ 0 <= pl_S p /\ 0 <= pl_L p /\ 0 <= pl_Lp p /\ -1 <= pl_Tz p <= 1 /\ (pl_L p + pl_Lp p) mod 2 = 0
  /\ (exists x, In x sp /\ sub_for (pl_S p) (pl_J p) (pl_Lp p) x) /\ (exists y, In y sp /\ sub_for (pl_S p) (pl_J p) (pl_L p) y).
(** a file of the interaction V, where V Tz is that of charge Tz (1: two protons), and the file has the opposite sign: every line is true, and every element of a stored triangle is given, for T=0 by the lines of no charge *)
Definition pn_interaction (sp : rspace) (V : Z -> potential) (lines : list line) : Prop :=
  exists ps, Forall2 (fun p l => line_text p l /\ line_between sp p) ps lines
  /\ Forall (fun p => pl_me p = V (- pl_Tz p) (pl_J p) (pl_S p) (pl_Lp p) (Z.to_nat (pl_np p)) (pl_L p) (Z.to_nat (pl_n p))) ps
  /\ forall i k x y u v Tz, (i <= k)%nat -> nth_error sp i = Some x -> nth_error sp k = Some y -> r_S x = r_S y -> r_J x = r_J y -> r_T x = r_T y -> - r_T x <= Tz <= r_T x ->
       (u < r_dim x)%nat -> (v < r_dim y)%nat -> (i < k)%nat \/ (u <= v)%nat ->
       exists p, In p ps /\ pl_Tz p = Tz /\ about p x u y v || about p y v x u = true.
(** * Sectors *)
Lemma rme_antisymmetric : forall Nmax sp, rme_space Nmax sp -> PnSpec.antisymmetric sp.
Proof.
  intros Nmax sp [Hall _] x Hx. destruct (Hall x Hx) as (_ & HS & HT & _ & Hp & Hg & _). split; [reflexivity|]. split; [reflexivity|]. split; [reflexivity|]. split; [|exact Hg].
  rewrite Zodd_mod in Hp. apply Zeq_bool_eq in Hp. Z.div_mod_to_equations; lia.
Qed.
Lemma scalar_in : forall Nmax sp i k x y, rme_space Nmax sp -> (i <= k)%nat -> nth_error sp i = Some x -> nth_error sp k = Some y -> r_J x = r_J y -> r_T x = r_T y -> r_g x = r_g y -> In (i, k) (scalar_sectors sp).
Proof.
  intros Nmax sp i k x y [Hall _] Hik Hx Hy EJ ET Eg. apply jt_sectors_in. split; [exact Hik|]. exists x, y. split; [exact Hx|]. split; [exact Hy|].
  destruct (Hall x (nth_error_In _ _ Hx)) as (LX & SX & TX & CX & _). destruct (Hall y (nth_error_In _ _ Hy)) as (LY & SY & TY & CY & _). split; [|split].
  - unfold TrfSpec.couples in *. rewrite EJ in *. split; [rewrite Z.abs_le; lia|lia].
  - unfold TrfSpec.couples. rewrite ET. split; [rewrite Z.abs_le; lia|lia].
  - rewrite Eg. replace (r_g y + 0 + r_g y) with (2 * r_g y) by lia. rewrite Z.even_mul. reflexivity.
Qed.
Lemma line_in_sectors : forall Nmax sp p, rme_space Nmax sp -> line_between sp p -> line_ok sp (scalar_sectors sp) p.
Proof.
  intros Nmax sp p Hsp (H1 & H2 & H3 & H4 & H5 & H6 & Hpar & (x & Hx & Sx) & (y & Hy & Sy)). repeat (split; [assumption|]).
  apply In_nth_error in Hx. destruct Hx as (b & Hb). apply In_nth_error in Hy. destruct Hy as (k & Hk). exists b, k, x, y. split; [exact Hb|]. split; [exact Hk|]. split; [exact Sx|]. split; [exact Sy|].
  destruct Sx as (X1 & X2 & X3 & X4 & X5), Sy as (Y1 & Y2 & Y3 & Y4 & Y5).
  assert (EJ : r_J x = r_J y) by congruence. assert (ET : r_T x = r_T y) by (rewrite X4, Y4; Z.div_mod_to_equations; lia). assert (Eg : r_g x = r_g y) by (rewrite X5, Y5; Z.div_mod_to_equations; lia).
  destruct (Nat.le_gt_cases b k); [left; apply (scalar_in Nmax sp b k x y); auto|right; apply (scalar_in Nmax sp k b y x); auto; lia].
Qed.
(** * From the three species to the components *)
Lemma species_held : forall Nmax sp V c, let o := OpLab 0 0 0 2 in let ss := map (sectors_at sp o) [0; 1; 2] in rme_space Nmax sp -> comps_ok sp ss c ->
  (forall T0 s q ix b k xb xk u v, nth_error ss T0 = Some s -> nth_error s q = Some (b, k) -> nth_error (scalar_sectors sp) ix = Some (b, k) -> nth_error sp b = Some xb -> nth_error sp k = Some xk ->
     in_sector sp s q u v -> (b < k)%nat \/ (u <= v)%nat -> r_S xb = r_S xk -> r_J xb = r_J xk -> r_T xb = r_T xk ->
     let e Tz := V Tz (r_J xk) (r_S xk) (r_L xb) u (r_L xk) v in
     cent c T0 q u v = if r_T xk =? 0 then (if Nat.eqb T0 0 then e 0 else 0%R)
       else if r_T xk =? 1 then (tz_to_t T0 0 * e 1%Z + tz_to_t T0 1 * e (-1)%Z + tz_to_t T0 2 * e 0%Z)%R else 0%R) ->
  (forall T0 s q b k u v, nth_error ss T0 = Some s -> nth_error s q = Some (b, k) -> ~ In (b, k) (scalar_sectors sp) -> in_sector sp s q u v -> cent c T0 q u v = 0%R) ->
  held sp o c (species_rme V).
Proof.
  intros Nmax sp V c o ss Hsp Hc A A0. split; [symmetry; exact (F2_len _ _ _ Hc)|]. intros T0 HT0.
  assert (Hn : nth_error ss (Z.to_nat T0) = Some (sectors_at sp o T0)).
  { unfold ss. apply map_nth_error. assert (C : T0 = 0 \/ T0 = 1 \/ T0 = 2) by lia. destruct C as [->|[->| ->]]; reflexivity. }
  destruct (F2_get _ _ _ Hc _ _ Hn) as ([s ms] & Hcn & Hsn & Hb). cbn [fst snd] in Hsn, Hb. subst s. exists (sectors_at sp o T0), ms. split; [exact Hcn|]. split; [apply sectors_at_nodup|].
  split; [symmetry; exact (F2_len _ _ _ Hb)|]. split; [intros; apply sectors_at_in|].
  intros q i k x y Hq Hx Hy. destruct (F2_get _ _ _ Hb _ _ Hq) as (m & Hm & Rm & Cm). cbn [fst snd] in Rm, Cm. rewrite (rdim_at _ _ _ Hx) in Rm. rewrite (rdim_at _ _ _ Hy) in Cm.
  exists m. split; [exact Hm|]. split; [exact Rm|]. split; [exact Cm|]. intros u v Hu Hv Huv.
  assert (Hat : at_ m u v = cent c (Z.to_nat T0) q u v) by (unfold cent; rewrite Hcn; unfold entry_of; rewrite Hm; reflexivity). rewrite Hat. clear Hat.
  assert (His : in_sector sp (sectors_at sp o T0) q u v) by (exists i, k; split; [exact Hq|]; rewrite (rdim_at _ _ _ Hx), (rdim_at _ _ _ Hy); auto).
  destruct (in_dec (fun a b : nat * nat => ltac:(decide equality; apply Nat.eq_dec)) (i, k) (scalar_sectors sp)) as [Hi|Hi].
  - apply In_nth_error in Hi. destruct Hi as (ix & Hix). destruct (scalar_pair _ _ _ _ _ _ _ Hsp Hix Hx Hy) as (S1 & S2 & S3).
    rewrite (A _ _ _ ix i k x y u v Hn Hq Hix Hx Hy His Huv S1 S2 S3). unfold species_rme. rewrite same_pair_refl by assumption. cbv zeta.
    change (rl y) with (r_L y, r_S y, r_J y, r_T y) at 1. cbv beta iota. rewrite (component_table (fun Tz => V Tz (r_J y) (r_S y) (r_L x) u (r_L y) v)) by lia. rewrite Z2Nat.id by lia.
    unfold isospin_component. rewrite !potential_rl.
    destruct (Z.eqb_spec (r_T y) 0) as [Ht|Ht]; [rewrite Ht; cbn [Z.eqb andb]; destruct (Z.eqb_spec T0 0) as [->|N0]; [reflexivity|destruct (Nat.eqb_spec (Z.to_nat T0) 0); [lia|reflexivity]]|].
    destruct (Z.eqb_spec (r_T y) 1) as [Ht1|Ht1]; [|reflexivity]. f_equal. apply lsum_ext. intros Tz _. rewrite potential_rl. reflexivity.
  - rewrite (A0 _ _ _ i k u v Hn Hq Hi His). unfold species_rme. destruct (same_pair (rl x) (rl y)) eqn:Esp; [|reflexivity]. exfalso. apply Hi.
    pose proof (proj1 (sectors_at_in _ _ _ _ _) (nth_error_In _ _ Hq)) as (_ & Hle & x' & y' & Hx' & Hy' & RJ & RT & Rg). rewrite Hx in Hx'. injection Hx' as <-. rewrite Hy in Hy'. injection Hy' as <-.
    apply jt_sectors_in. split; [exact Hle|]. exists x, y. split; [exact Hx|]. split; [exact Hy|]. split; [exact RJ|]. split; [|exact Rg]. unfold same_pair, rl in Esp. rewrite !andb_true_iff, !Z.eqb_eq in Esp. destruct Esp as [_ ->].
    destruct Hsp as [Hall _]. destruct (Hall y (nth_error_In _ _ Hy)) as (_ & _ & TY & _). unfold TrfSpec.couples. split; [rewrite Z.abs_le; lia|lia].
Qed.
Lemma species_sectors : forall Nmax sp, rme_space Nmax sp -> IsoSpec.rsectors_ok sp (map (sectors_at sp (OpLab 0 0 0 2)) [0; 1; 2]).
Proof.
  intros Nmax sp Hsp. set (o := OpLab 0 0 0 2).
  assert (Es : forall T0, 0 <= T0 <= 2 -> sectors_at sp o T0 = jt_sectors r_J r_T r_g sp 0 T0 0).
  { intros T0 HT0. unfold sectors_at, o. cbn [o_T0_min o_T0_max o_J0 o_g0]. rewrite (proj2 (Z.leb_le 0 T0)), (proj2 (Z.leb_le T0 2)) by lia. reflexivity. }
  split; [reflexivity|]. split; [|split].
  - apply Forall_forall. intros s Hin'. apply in_map_iff in Hin'. destruct Hin' as (T0 & <- & _). apply sectors_at_nodup.
  - intros s0 b k xb xk s Hs0 Hbk Hb Hk Tb Tk Hin'. cbn [map nth_error] in Hs0. injection Hs0 as <-. apply in_map_iff in Hin'. destruct Hin' as (T0 & <- & HT0).
    assert (HT3 : 0 <= T0 <= 2) by (cbn in HT0; lia). rewrite Es in Hbk by lia. apply jt_sectors_in in Hbk. destruct Hbk as (Hle & x & y & Hx & Hy & RJ & RT & Rg). rewrite Hb in Hx. injection Hx as <-. rewrite Hk in Hy. injection Hy as <-.
    rewrite Es by exact HT3. apply jt_sectors_in. split; [exact Hle|]. exists xb, xk. split; [exact Hb|]. split; [exact Hk|]. split; [exact RJ|]. split; [|exact Rg]. unfold TrfSpec.couples. rewrite Tb, Tk. split; [rewrite Z.abs_le; lia|lia].
  - intros s b k Hin' Hbk. apply in_map_iff in Hin'. destruct Hin' as (T0 & <- & _). apply sectors_at_in in Hbk. destruct Hbk as (_ & _ & x & y & Hx & Hy & _).
    split; [apply nth_error_Some; congruence|apply nth_error_Some; congruence].
Qed.
(** * pn2rel *)
Lemma pn_read : forall Nmax sp V lines, rme_space Nmax sp -> rspace_ok sp -> (forall Tz, symmetric_V (V Tz)) -> pn_interaction sp V lines ->
  let o := OpLab 0 0 0 2 in exists c, read_pn_pn sp lines (map (fun T0 => (sectors_at sp o T0, rzero_blocks sp (sectors_at sp o T0))) [0; 1; 2]) = Ok c /\ held sp o c (species_rme V).
Proof.
  intros Nmax sp V lines Hsp Hok Hsym (ps & Hl & Htrue & Hgiven) o. set (ss := map (sectors_at sp o) [0; 1; 2]). set (z := map _ [0; 1; 2]).
  pose proof (species_sectors Nmax sp Hsp) as Hss. fold o in Hss. fold ss in Hss.
  assert (Hn0 : sectors_at sp o 0 = scalar_sectors sp) by reflexivity.
  assert (Hzc : comps_ok sp ss z) by (unfold comps_ok, ss, z; cbn [map]; repeat (constructor; [split; [reflexivity|apply rzero_ok]|]); constructor).
  assert (Hz0 : zero_comps sp ss z).
  { intros T0 s q x y Hs' _. unfold cent. destruct (nth_error z T0) as [[s' ms]|] eqn:En; [|reflexivity]. apply nth_error_In, in_map_iff in En. destruct En as (T & [= <- <-] & _). apply rzero_entry. }
  assert (Hup : upper (scalar_sectors sp)) by (intros b k Hbk; apply jt_sectors_in in Hbk; exact (proj1 Hbk)).
  assert (Hnd : NoDup (scalar_sectors sp)) by apply jt_sectors_nodup.
  assert (Hl' : Forall2 (fun p l => line_text p l /\ line_ok sp (scalar_sectors sp) p) ps lines).
  { clear - Hl Hsp. induction Hl as [|p l ps lines [H1 H2] Hl IH]; constructor; [split; [exact H1|apply (line_in_sectors Nmax); assumption]|exact IH]. }
  unfold read_pn_pn. unfold z at 1. cbn [map nth_error get bind]. rewrite Hn0. set (zero := map _ (scalar_sectors sp)).
  destruct (file_stored sp (scalar_sectors sp) ps lines Hok (rme_antisymmetric _ _ Hsp) Hnd Hup Hl' [zero; zero; zero]) as (inputs & Er & Hin & Hent).
  { split; [reflexivity|]. repeat constructor; apply zero_ok. }
  rewrite Er. cbn [bind]. destruct (pn_accumulate_value sp ss (scalar_sectors sp) inputs z Hss eq_refl Hin Hzc Hz0) as (c & E & Hc & A). exists c. split; [exact E|].
  assert (Hpart : forall Tz, -1 <= Tz <= 1 -> part [zero; zero; zero] Tz = zero).
  { intros Tz HT. unfold part. assert (Hk : (Z.to_nat (Tz + 1) < 3)%nat) by lia. destruct (Z.to_nat (Tz + 1)) as [|[|[|n]]]; [reflexivity|reflexivity|reflexivity|lia]. }
  assert (Hval : forall Tz q i k x y u v, nth_error (scalar_sectors sp) q = Some (i, k) -> nth_error sp i = Some x -> nth_error sp k = Some y -> (u < r_dim x)%nat -> (v < r_dim y)%nat -> (i < k)%nat \/ (u <= v)%nat ->
     r_S x = r_S y -> r_J x = r_J y -> r_T x = r_T y -> - r_T x <= Tz <= r_T x -> -1 <= Tz <= 1 -> entry_of (part inputs Tz) q u v = V (- Tz) (r_J y) (r_S y) (r_L x) u (r_L y) v).
  { intros Tz q i k x y u v Hq Hx Hy Hu Hv Huv ES EJ ET HTz HT1. rewrite (Hent Tz q i k x y u v); try assumption; [|rewrite (rdim_at _ _ _ Hx); exact Hu|rewrite (rdim_at _ _ _ Hy); exact Hv].
    rewrite Hpart by exact HT1. unfold zero. rewrite zero_entry. rewrite (told_from (fun T => V (- T)) Tz x u y v ps 0).
    - rewrite EJ, ES. reflexivity.
    - intros T J S L a L' b. apply Hsym.
    - exact Htrue.
    - left. apply (Hgiven i k x y u v Tz); try assumption. exact (Hup _ _ (nth_error_In _ _ Hq)). }
  apply (species_held Nmax); [exact Hsp|exact Hc| |].
  - intros T0 s q ix b k xb xk u v Hs Hq Hix Hb Hk His Huv ES EJ ET. cbv zeta. rewrite (A T0 s q ix b k xb xk u v Hs Hq Hix Hb Hk His). rewrite ET, Z.eqb_refl. cbn [negb].
    destruct His as (b' & k' & Hq' & Hu & Hv). rewrite Hq in Hq'. injection Hq' as <- <-. rewrite (rdim_at _ _ _ Hb) in Hu. rewrite (rdim_at _ _ _ Hk) in Hv.
    destruct (Z.eqb_spec (r_T xk) 0) as [T0e|T0e].
    + destruct (Nat.eqb T0 0); [|reflexivity]. apply (Hval 0 ix b k xb xk u v); try assumption; lia.
    + destruct (Z.eqb_spec (r_T xk) 1) as [T1|T1]; [|reflexivity]. rewrite (Hval (-1) ix b k xb xk u v), (Hval 0 ix b k xb xk u v), (Hval 1 ix b k xb xk u v) by (try assumption; lia). reflexivity.
  - intros T0 s q b k u v Hs Hq Hno His. change (nth_error ss T0 = Some s) in Hs. destruct (pn_accumulate_adds sp ss (scalar_sectors sp) inputs Hss eq_refl Hin z Hzc) as (c2 & E2 & _ & Hat). rewrite E in E2. injection E2 as <-.
    rewrite (Hat T0 s q u v Hs His), (Hz0 T0 s q u v Hs His), Rplus_0_l. apply lsum_0. intros ix _. apply lsum_0. intros Tz _. unfold contribution.
    destruct (nth_error (scalar_sectors sp) ix) as [p|] eqn:Ep; [|reflexivity]. rewrite Hs, Hq. destruct (sector_eqb p (b, k)) eqn:Eq; [|reflexivity]. apply sector_eqb_ok in Eq. subst p. elim Hno. exact (nth_error_In _ _ Ep).
Qed.
Theorem pn_made : forall B to_int disk name a b source target more Nmax Jmax V lines, to_int a = Some Nmax -> to_int b = Some Jmax -> disk source = Some lines ->
  let sp := space_of B Nmax Jmax in rme_space Nmax sp -> rspace_ok sp -> (forall Tz, symmetric_V (V Tz)) -> pn_interaction sp V lines -> writable B target = true ->
  exists c, pn_main B to_int disk (name :: a :: b :: source :: target :: more) = Ok (target, RelFile (OpLab 0 0 0 2) Nmax Jmax c) /\ held sp (OpLab 0 0 0 2) c (species_rme V).
Proof.
  intros B to_int disk name a b source target more Nmax Jmax V lines Ha Hb Hd sp Hsp Hok Hsym Hf Hw. destruct (pn_read Nmax sp V lines Hsp Hok Hsym Hf) as (c & E & Hc). exists c. split; [|exact Hc].
  unfold pn_main. rewrite (arguments_ok _ _ _ _ _ _ _ _ _ Ha Hb). cbn [bind]. fold sp. rewrite zero_components_ok by (cbn; lia). cbn [bind]. rewrite Hd. cbn [bind]. rewrite E. cbn [bind]. rewrite Hw. reflexivity.
Qed.
(** * relative-filter *)
Lemma filter_loop : forall p sp o s0 m0 r0 s1 m1 r1 s2 m2 r2, 0 <= o_T0_min o -> o_T0_max o <= 2 ->
  filter_component p sp s0 m0 = Ok r0 -> filter_component p sp s1 m1 = Ok r1 -> filter_component p sp s2 m2 = Ok r2 ->
  let kept T0 (r : blocks R) := if (o_T0_min o <=? T0) && (T0 <=? o_T0_max o) then r else [] in
  filter_operator p sp o [(s0, m0); (s1, m1); (s2, m2)] = Ok [(s0, kept 0 r0); (s1, kept 1 r1); (s2, kept 2 r2)].
Proof.
  intros p sp [J0 g0 a b] s0 m0 r0 s1 m1 r1 s2 m2 r2 Ha Hb E0 E1 E2. cbn [o_T0_min o_T0_max] in *. unfold filter_operator. cbn [o_T0_min o_T0_max].
  destruct (Z.lt_ge_cases b a) as [Hlt|Hge].
  - replace (zrange a b) with (@nil Z) by (unfold zrange; replace (Z.to_nat (b - a + 1)) with 0%nat by lia; reflexivity). cbn [for_each map fst].
    assert (K : forall T0 (r : blocks R), (if (a <=? T0) && (T0 <=? b) then r else []) = []) by (intros T0 r; destruct (Z.leb_spec a T0), (Z.leb_spec T0 b); try reflexivity; lia).
    cbv zeta. rewrite !K. reflexivity.
  - assert (C : (a = 0 \/ a = 1 \/ a = 2) /\ (b = 0 \/ b = 1 \/ b = 2)) by lia.
    destruct C as [[->|[->| ->]] [->|[->| ->]]]; try lia;
     [change (zrange 0 0) with [0]|change (zrange 0 1) with [0; 1]|change (zrange 0 2) with [0; 1; 2]|change (zrange 1 1) with [1]|change (zrange 1 2) with [1; 2]|change (zrange 2 2) with [2]];
     change (Z.to_nat 0) with 0%nat in *; repeat (cbn -[filter_component Z.to_nat]; change (Z.to_nat 0) with 0%nat; change (Z.to_nat 1) with 1%nat; change (Z.to_nat 2) with 2%nat; cbn -[filter_component Z.to_nat]; rewrite ?E0, ?E1, ?E2); reflexivity.
Qed.
Lemma filter_held : forall p sp o c F, 0 <= o_T0_min o -> o_T0_max o <= 2 -> held sp o c F -> exists c', filter_operator p sp o c = Ok c' /\ held sp o c' F.
Proof.
  intros p sp o c F H0 H2 Hh. pose proof (held_sectors sp o c F H0 H2 Hh) as Hs. destruct Hh as (L3 & H).
  destruct c as [|[s0 m0] [|[s1 m1] [|[s2 m2] [|? ?]]]]; try discriminate.
  destruct (filter_copies p sp s0 m0 (proj2 (Hs 0))) as (r0 & E0 & O0 & V0). destruct (filter_copies p sp s1 m1 (proj2 (Hs 1))) as (r1 & E1 & O1 & V1). destruct (filter_copies p sp s2 m2 (proj2 (Hs 2))) as (r2 & E2 & O2 & V2).
  eexists. split; [apply filter_loop; eassumption|]. split; [reflexivity|]. intros T0 HT0. destruct (H T0 HT0) as (s & ms & Hn & Nd & Hl & Hin & Hv).
  assert (G : forall s' m' r', (s, ms) = (s', m') -> rblocks_ok sp s' r' ->
    (forall q x m m'' i j, nth_error s' q = Some x -> nth_error m' q = Some m -> nth_error r' q = Some m'' -> (i < rdim sp (fst x))%nat -> (j < rdim sp (snd x))%nat ->
      (kept_triangle x i j -> at_ m'' i j = at_ m i j) /\ (~ kept_triangle x i j -> at_ m'' i j = 0%R)) ->
    let kept (r : blocks R) := if (o_T0_min o <=? T0) && (T0 <=? o_T0_max o) then r else [] in
    length (kept r') = length s /\ forall q i k x y, nth_error s q = Some (i, k) -> nth_error sp i = Some x -> nth_error sp k = Some y ->
      exists m, nth_error (kept r') q = Some m /\ rows m = r_dim x /\ cols m = r_dim y
      /\ forall u v, (u < r_dim x)%nat -> (v < r_dim y)%nat -> (i < k)%nat \/ (u <= v)%nat -> at_ m u v = F T0 (rl x) (r_L x + 2 * Z.of_nat u) (rl y) (r_L y + 2 * Z.of_nat v)).
  { intros s' m' r' [= <- <-] Ok' Vr kept. unfold kept. destruct ((o_T0_min o <=? T0) && (T0 <=? o_T0_max o)) eqn:Eb.
    - split; [symmetry; exact (F2_len _ _ _ Ok')|]. intros q i k x y Hq Hx Hy. destruct (Hv q i k x y Hq Hx Hy) as (m & Hm & Rm & Cm & Am). destruct (F2_get _ _ _ Ok' _ _ Hq) as (m'' & Hm'' & Rm'' & Cm''). cbn [fst snd] in *.
      rewrite (rdim_at _ _ _ Hx) in Rm''. rewrite (rdim_at _ _ _ Hy) in Cm''. exists m''. split; [exact Hm''|]. split; [exact Rm''|]. split; [exact Cm''|]. intros u v Hu Hv' Huv.
      destruct (Vr q (i, k) m m'' u v Hq Hm Hm'') as [V _]; [cbn [fst]; rewrite (rdim_at _ _ _ Hx); exact Hu|cbn [snd]; rewrite (rdim_at _ _ _ Hy); exact Hv'|]. rewrite V by (unfold kept_triangle; cbn; lia). apply Am; assumption.
    - assert (Es : s = []). { destruct s as [|[i k] s]; [reflexivity|]. exfalso. destruct (proj1 (Hin i k) (or_introl eq_refl)) as (Hr & _). unfold TrfSpec.in_range in Hr. apply andb_false_iff in Eb. rewrite !Z.leb_gt in Eb. lia. }
      rewrite Es. split; [reflexivity|]. intros [|q] i k x y Hq; discriminate. }
  assert (C : T0 = 0 \/ T0 = 1 \/ T0 = 2) by lia. destruct C as [->|[->| ->]].
  - change (Some (s0, m0) = Some (s, ms)) in Hn. injection Hn as -> ->. destruct (G s ms r0 eq_refl O0 V0) as [G1 G2]. eexists _, _. split; [reflexivity|]. split; [exact Nd|]. split; [exact G1|]. split; [exact Hin|exact G2].
  - change (Some (s1, m1) = Some (s, ms)) in Hn. injection Hn as -> ->. destruct (G s ms r1 eq_refl O1 V1) as [G1 G2]. eexists _, _. split; [reflexivity|]. split; [exact Nd|]. split; [exact G1|]. split; [exact Hin|exact G2].
  - change (Some (s2, m2) = Some (s, ms)) in Hn. injection Hn as -> ->. destruct (G s ms r2 eq_refl O2 V2) as [G1 G2]. eexists _, _. split; [reflexivity|]. split; [exact Nd|]. split; [exact G1|]. split; [exact Hin|exact G2].
Qed.
Theorem filter_made : forall B disk source target rest lines f F, disk source = Some f -> let sp := space_of B (rf_Nmax f) (rf_Jmax f) in 0 <= o_T0_min (rf_o f) -> o_T0_max (rf_o f) <= 2 ->
  held sp (rf_o f) (rf_c f) F -> writable B target = true ->
  exists c, filter_main B disk ((source :: target :: rest) :: lines) = Ok (target, RelFile (rf_o f) (rf_Nmax f) (rf_Jmax f) c) /\ held sp (rf_o f) c F.
Proof.
  intros B disk source target rest lines f F Hd sp H0 H2 Hh Hw. destruct (filter_held (FParams source target None None) sp (rf_o f) (rf_c f) F H0 H2 Hh) as (c & E & Hc). exists c. split; [|exact Hc].
  unfold filter_main. cbn [read_fparams bind fp_source fp_target]. rewrite Hd. cbn [bind]. fold sp. rewrite E. cbn [bind]. rewrite Hw. reflexivity.
Qed.
Theorem filter_ignored : forall B disk l rest rest', filter_main B disk (l :: rest) = filter_main B disk (l :: rest').
Proof. intros B disk [|a [|b l]] rest rest'; reflexivity. Qed.
Theorem filter_refused : forall B disk lines, (forall source target rest more, lines <> (source :: target :: rest) :: more) -> filter_main B disk lines = Exit.
Proof. intros B disk [|[|a [|b l]] more] H; try reflexivity. elim (H a b l more). reflexivity. Qed.
Theorem filter_missing : forall B disk source target rest lines, disk source = None -> filter_main B disk ((source :: target :: rest) :: lines) = Exit.
Proof. intros B disk source target rest lines H. unfold filter_main. cbn [read_fparams bind fp_source]. rewrite H. reflexivity. Qed.
Theorem filter_only : forall B disk lines name g, filter_main B disk lines = Ok (name, g) -> exists source rest more f, lines = (source :: name :: rest) :: more /\ disk source = Some f
  /\ rf_o g = rf_o f /\ rf_Nmax g = rf_Nmax f /\ rf_Jmax g = rf_Jmax f /\ writable B name = true.
Proof.
  intros B disk [|[|a [|b l]] more] name g H; try discriminate. unfold filter_main in H. cbn [read_fparams bind fp_source fp_target] in H. destruct (disk a) as [f|] eqn:E; [|discriminate]. cbn [bind] in H.
  destruct (filter_operator _ _ _ _) as [c| | |]; try discriminate. cbn [bind] in H. destruct (writable B b) eqn:Ew; [|discriminate]. injection H as <- <-. exists a, l, more, f. cbn. auto 8.
Qed.
(** * pn2rel: errors *)
Theorem pn_missing : forall B to_int disk name a b source target more Nmax Jmax, to_int a = Some Nmax -> to_int b = Some Jmax -> disk source = None ->
  pn_main B to_int disk (name :: a :: b :: source :: target :: more) = Exit.
Proof. intros B to_int disk name a b source target more Nmax Jmax Ha Hb Hd. unfold pn_main. rewrite (arguments_ok _ _ _ _ _ _ _ _ _ Ha Hb). cbn [bind]. rewrite zero_components_ok by (cbn; lia). cbn [bind]. rewrite Hd. reflexivity. Qed.
Theorem pn_only : forall B to_int disk args target f, pn_main B to_int disk args = Ok (target, f) -> exists name a b source more lines, args = name :: a :: b :: source :: target :: more
  /\ to_int a = Some (rf_Nmax f) /\ to_int b = Some (rf_Jmax f) /\ disk source = Some lines /\ rf_o f = OpLab 0 0 0 2 /\ writable B target = true /\ Forall (fun l => exists p, line_text p l) lines.
Proof.
  intros B to_int disk args target f H. unfold pn_main, pn2rel_arguments in H. destruct args as [|name [|a [|b [|source [|t more]]]]]; try discriminate; cbn [length Nat.ltb Nat.leb nth_error get bind] in H; unfold stoi in H;
   (destruct (to_int a) as [Nmax|] eqn:Ea; [|discriminate]); cbn [bind] in H; (destruct (to_int b) as [Jmax|] eqn:Eb; [|discriminate]); cbn [bind] in H; try discriminate.
  rewrite zero_components_ok in H by (cbn; lia). cbn [bind] in H. destruct (disk source) as [lines|] eqn:Ed; [|discriminate]. cbn [bind] in H.
  destruct (read_pn_pn _ lines _) as [c| | |] eqn:Er; try discriminate. cbn [bind] in H. destruct (writable B t) eqn:Ew; [|discriminate]. injection H as <- <-. exists name, a, b, source, more, lines. repeat (split; [first [reflexivity|assumption]|]).
  unfold read_pn_pn in Er. cbn [map nth_error get bind] in Er. destruct (read_pn _ _ lines _) as [inputs| | |] eqn:Ei; try discriminate. clear - Ei. unfold read_pn in Ei. revert Ei. generalize (sectors_at (space_of B Nmax Jmax) (OpLab 0 0 0 2) 0). intros s.
  match goal with |- for_each _ _ ?z = _ -> _ => generalize z end. induction lines as [|l lines IH]; intros z E; [constructor|]. cbn [for_each] in E. destruct (fields_complete l) as [(p & Ep & Hp)|Ep]; rewrite Ep in E; [|discriminate]. cbn [bind] in E.
  destruct (store_line _ _ p z) as [z'| | |] eqn:Es; try discriminate. cbn [bind] in E. constructor; [exists p; exact Hp|exact (IH _ E)].
Qed.
(** a line that cannot be read, after lines of the interaction *)
Theorem pn_unreadable : forall B to_int disk name a b source target more Nmax Jmax good l rest, to_int a = Some Nmax -> to_int b = Some Jmax -> disk source = Some (good ++ l :: rest) ->
  let sp := space_of B Nmax Jmax in rme_space Nmax sp -> rspace_ok sp -> (exists ps, Forall2 (fun p l => line_text p l /\ line_between sp p) ps good) ->
  (forall p, ~ line_text p l) \/ (exists p, line_text p l /\ ((forall x, In x sp -> (r_L x, r_S x, r_J x) <> (pl_L p, pl_S p, pl_J p)) \/ (forall x, In x sp -> (r_L x, r_S x, r_J x) <> (pl_Lp p, pl_S p, pl_J p)))) ->
  pn_main B to_int disk (name :: a :: b :: source :: target :: more) = Exit.
Proof.
  intros B to_int disk name a b source target more Nmax Jmax good l rest Ha Hb Hd sp Hsp Hok (ps & Hl) Hbad. unfold pn_main. rewrite (arguments_ok _ _ _ _ _ _ _ _ _ Ha Hb). cbn [bind]. rewrite zero_components_ok by (cbn; lia). cbn [bind]. rewrite Hd. cbn [bind].
  fold sp. unfold read_pn_pn. cbn [map nth_error get bind]. change (sectors_at sp (OpLab 0 0 0 2) 0) with (scalar_sectors sp).
  assert (Hup : upper (scalar_sectors sp)) by (intros b' k Hbk; apply jt_sectors_in in Hbk; exact (proj1 Hbk)).
  assert (Hnd : NoDup (scalar_sectors sp)) by apply jt_sectors_nodup.
  assert (Hl' : Forall2 (fun p l => line_text p l /\ line_ok sp (scalar_sectors sp) p) ps good).
  { clear - Hl Hsp. induction Hl as [|p l ps lines [H1 H2] Hl IH]; constructor; [split; [exact H1|apply (line_in_sectors Nmax); assumption]|exact IH]. }
  destruct Hbad as [Hbad|(p & Hp & Hbad)]; [erewrite unreadable|erewrite absent]; try reflexivity; try eassumption; try exact (rme_antisymmetric _ _ Hsp); try (split; [reflexivity|repeat constructor; apply zero_ok]).
Qed.
(** * Followed by moshinsky *)
Section Chain.
Variable u6jz : Z -> Z -> Z -> Z -> Z -> Z -> R.
Variable racah1 : Z -> Z -> Z -> Z -> Z -> Z -> Z -> R.
Variable u9j : Z -> Z -> Z -> Z -> Z -> Z -> Z -> R.
Variable mosh : Z -> Z -> Z -> Z -> Z -> Z -> Z -> Z -> Z -> R.
Variable flip : Z -> Z -> Z -> Z -> Z -> R.
Variable tol : R.
Variable M : basislib.
Variable B : rellib.
Notation mos_run := (mos_run u6jz racah1 u9j mosh flip tol M).
Notation two_body p Jmax J0 F := (jt_rme (jt_of M (m_rank p) (m_cutoff p)) (jj_rme u9j (tb_rme mosh (relcm_rme u6jz racah1 Jmax J0 F)))).
Theorem pn_then_moshinsky : forall to_int disk name a b source target more Nmax Jmax V lines q pn, to_int a = Some Nmax -> to_int b = Some Jmax -> disk source = Some lines ->
  let sp := space_of B Nmax Jmax in rel_space Nmax Jmax sp -> (forall Tz, symmetric_V (V Tz)) -> pn_interaction sp V lines -> writable B target = true ->
  flip_ok flip -> racah_flip racah1 flip 0 ->
  exists f, pn_main B to_int disk (name :: a :: b :: source :: target :: more) = Ok (target, f) /\
  (m_source q = target -> reads_back B M target f -> ready M flip (OpLab 0 0 0 2) Nmax q pn ->
   exists bs, mos_run q = Ok (Some (m_target q, FH2 (m_format q) bs)) /\ h2_blocks tol (OpLab 0 0 0 2) pn (pn_sectors M pn 0 0 (m_Tz0 q)) (two_body q Jmax 0 (species_rme V)) bs).
Proof.
  intros to_int disk name a b source target more Nmax Jmax V lines q pn Ha Hb Hd sp (Hc & Hsp & HJ) Hsym Hf Hw Hfl Hrf.
  destruct (pn_made B to_int disk name a b source target more Nmax Jmax V lines Ha Hb Hd Hsp (proj1 Hc) Hsym Hf Hw) as (c & E & Hh). eexists. split; [exact E|]. intros Hq (c' & Er & Hst) Hre. cbn [rf_o rf_Nmax rf_Jmax rf_c] in *.
  rewrite <- Hq in Er. apply (then_moshinsky u6jz racah1 u9j mosh flip tol M q (OpLab 0 0 0 2) sp Nmax Jmax c' (species_rme V) pn Er Hre Hfl Hrf); try (cbn; lia); [exact Hc| |apply species_hermitian; assumption].
  apply Hst. apply held_stores; try (cbn; lia). exact Hh.
Qed.
Theorem filter_then_moshinsky : forall disk source target rest lines f F q pn, disk source = Some f -> let sp := space_of B (rf_Nmax f) (rf_Jmax f) in rel_space (rf_Nmax f) (rf_Jmax f) sp ->
  0 <= o_T0_min (rf_o f) -> o_T0_max (rf_o f) <= 2 -> held sp (rf_o f) (rf_c f) F -> hermitian_rel flip F -> writable B target = true -> flip_ok flip -> racah_flip racah1 flip (o_J0 (rf_o f)) ->
  exists g, filter_main B disk ((source :: target :: rest) :: lines) = Ok (target, g) /\
  (m_source q = target -> reads_back B M target g -> ready M flip (rf_o f) (rf_Nmax f) q pn ->
   exists bs, mos_run q = Ok (Some (m_target q, FH2 (m_format q) bs)) /\ h2_blocks tol (rf_o f) pn (pn_sectors M pn (o_J0 (rf_o f)) (o_g0 (rf_o f)) (m_Tz0 q)) (two_body q (rf_Jmax f) (o_J0 (rf_o f)) F) bs).
Proof.
  intros disk source target rest lines f F q pn Hd sp (Hc & Hsp & HJ) H0 H2 Hh HF Hw Hfl Hrf. destruct (filter_made B disk source target rest lines f F Hd H0 H2 Hh Hw) as (c & E & Hh'). eexists. split; [exact E|].
  intros Hq (c' & Er & Hst) Hre. cbn [rf_o rf_Nmax rf_Jmax rf_c] in *. rewrite <- Hq in Er. apply (then_moshinsky u6jz racah1 u9j mosh flip tol M q (rf_o f) sp (rf_Nmax f) (rf_Jmax f) c' F pn Er Hre Hfl Hrf); try assumption.
  apply Hst. apply held_stores; assumption.
Qed.
End Chain.
