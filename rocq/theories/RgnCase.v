(** C146-C152: concrete cases and counterexamples. *)
From Coq Require Import String List ZArith Reals Bool Lia Lra.
From Verif Require Import Base BaseLemmas RMat OscModel OscSpec OscFinal BlockModel BlockProof ObioModel MixModel MixProof MoshModel JpvModel JpvSpec JpvProof IsoModel IsoSpec IsoFinal TrfModel TrfSpec TrfProof TrfFinal TrfCase RmeModel RmeSpec RmeProof RmeFinal WfModel LenModel RelxModel RelxSpec RelxProof RgModel HmCase MosModel MosSpec MosFile MosCase RgnModel RgnSpec RgnInput RgnProof RgnFile RgnJpv RgnChain.
Import ListNotations.
Open Scope Z_scope.
Open Scope outcome_scope.
Local Open Scope string_scope.

(** ** input *)
Definition in_coulomb : list (list word) := [[iw "0" 0; iw "0" 0; iw "0" 0; iw "2" 2]; [iw "2" 2]; [tx "coulomb"; tx "p"; iw "500" 500]; [tx "coul.dat"]].
Definition p_coulomb : gparams := GParams (OpLab 0 0 0 2) 2 3 "coulomb" (ACoulomb OpP 500) "coul.dat".
Lemma gen_input_case : gen_read false in_coulomb = Ok p_coulomb
  /\ gen_read false [[iw "1" 1; iw "1" 1; iw "1" 1; iw "1" 1]; [iw "4" 4]; [tx "dipole"; tx "r"; iw "1" 1]; [tx "e1.dat"]] = Ok (GParams (OpLab 1 1 1 1) 4 5 "dipole" (ACoordinate KR 1) "e1.dat")
  /\ gen_read true [[iw "0" 0; iw "0" 0; iw "0" 0; iw "0" 0]; [iw "20" 20]; [tx "interaction"; tx "Daejeon16"]; [tx "d16.dat"]] = Ok (GParams (OpLab 0 0 0 0) 20 6 "interaction" (AInteraction "Daejeon16") "d16.dat").
Proof. repeat split; reflexivity. Qed.
(** unknown species; no parameters; no target *)
Lemma gen_refused_case : gen_read false [[iw "0" 0; iw "0" 0; iw "0" 0; iw "2" 2]; [iw "2" 2]; [tx "coulomb"; tx "np"; iw "500" 500]; [tx "coul.dat"]] = Exit
  /\ gen_read false [[iw "0" 0; iw "0" 0; iw "0" 0; iw "2" 2]; [iw "2" 2]; [tx "spin-am"]; [tx "s.dat"]] = Exit
  /\ gen_read false [[iw "0" 0; iw "0" 0; iw "0" 0; iw "2" 2]; [iw "2" 2]; [tx "rsqr"]] = Exit.
Proof. repeat split; reflexivity. Qed.
Definition in_xform (N : Z) (r : Z) : list (list word) := [[tx "a.dat"]; [iw "N" N; iw "r" r; iw "500" 500]; [tx "b.dat"]].
Lemma xf_input_case : xf_read (String.eqb "a.dat") (in_xform 0 1) = Ok (XParams "a.dat" 0 1 500 "b.dat") /\ xf_read (String.eqb "c.dat") (in_xform 0 1) = Exit.
Proof. split; reflexivity. Qed.
Definition in_jpv : list (list word) := [[iw "0" 0; iw "1" 1; iw "0" 0]; [tx "v.jpv"]; [tx "in.dat"]].
Definition in_jpv3 : list (list word) := [[iw "0" 0; iw "1" 1; iw "2" 2]; [tx "pp.jpv"; tx "nn.jpv"; tx "pn.jpv"]; [tx "in.dat"]].
Lemma jpv_input_case : jpv_read in_jpv = Ok (JParams 0 1 0 ["v.jpv"]%string "in.dat") /\ jpv_read in_jpv3 = Ok (JParams 0 1 2 ["pp.jpv"; "nn.jpv"; "pn.jpv"]%string "in.dat")
  /\ jpv_read [[iw "0" 0; iw "1" 1; iw "1" 1]; [tx "v.jpv"]; [tx "in.dat"]] = Exit /\ jpv_read [[iw "0" 0; iw "1" 1; iw "2" 2]; [tx "v.jpv"]; [tx "in.dat"]] = Exit.
Proof. repeat split; reflexivity. Qed.
Lemma cm_input_case : cm_read [[iw "1" 1; iw "0" 0; iw "1" 1; iw "1" 1]; [iw "2" 2]; [tx "LENPIC-NLOM1"; iw "1" 1; iw "2" 2; iw "500" 500]; [tx "m1.dat"]] = Ok (CParams (OpLab 1 0 1 1) 2 "LENPIC-NLOM1" (Some (1, 2, 500%Z)) "m1.dat")%R.
Proof. reflexivity. Qed.
Local Close Scope string_scope.

(** ** spaces: J = 0 with no more than 2 quanta; no quanta *)
Definition spaces0 (Nmax Jmax : Z) : rspace :=
  if Jmax =? 0 then (if Nmax =? 0 then [RSub 0 0 0 1 0 1%nat] else [RSub 0 0 0 1 0 2%nat; RSub 1 1 0 1 1 1%nat]) else rel_subs rel0.
Definition lib0 : rellib := RelLib spaces0 (fun _ => []) (fun _ _ => Exit) (fun _ => true).
Lemma rel_space_00 : rel_space 0 0 (spaces0 0 0).
Proof.
  split; [split|split; [split|]].
  - cbn. repeat constructor; cbn; intuition discriminate.
  - intros L S J T HL HS HC HJ HT Ho. cbn in *. unfold couples in HC. assert (L = 0) by lia. assert (J = 0) by lia. assert (S = 0) by lia. subst. assert (T = 0 \/ T = 1) as [-> | ->] by lia; [discriminate|].
    eexists. split; [left; reflexivity|]. split; reflexivity.
  - intros x [<-|[]]. cbn. unfold couples. repeat split; lia.
  - intros [|i] [|k] x y Hik Hx Hy; cbn in *; try (destruct i; discriminate); try (destruct k; discriminate). injection Hx as <-. injection Hy as <-. lia.
  - intros x [<-|[]]. cbn. lia.
Qed.
Lemma rel_space_20 : rel_space 2 0 (spaces0 2 0).
Proof.
  split; [split|split; [split|]].
  - cbn. repeat constructor; cbn; intuition discriminate.
  - intros L S J T HL HS HC HJ HT Ho. cbn in *. unfold couples in HC. assert (J = 0) by lia. assert (L = S) by lia. subst. assert (S = 0 \/ S = 1) as [-> | ->] by lia; (assert (T = 0 \/ T = 1) as [-> | ->] by lia; [discriminate|]).
    + eexists. split; [left; reflexivity|]. split; reflexivity.
    + eexists. split; [right; left; reflexivity|]. split; reflexivity.
  - intros x [<-|[<-|[]]]; cbn; unfold couples; repeat split; lia.
  - intros [|[|i]] [|[|k]] x y Hik Hx Hy; cbn in *; try (destruct i; discriminate); try (destruct k; discriminate); injection Hx as <-; injection Hy as <-; cbn; lia.
  - intros x [<-|[<-|[]]]; cbn; lia.
Qed.
Lemma rel_space_01 : rel_space 0 1 (spaces0 0 1).
Proof.
  split; [exact rel0_complete|split; [split|]].
  - intros x [<-|[<-|[]]]; cbn; unfold couples; repeat split; lia.
  - intros [|[|i]] [|[|k]] x y Hik Hx Hy; cbn in *; try (destruct i; discriminate); try (destruct k; discriminate); injection Hx as <-; injection Hy as <-; cbn; lia.
  - intros x [<-|[<-|[]]]; cbn; lia.
Qed.
Lemma rspace_ok0 : rspace_ok (spaces0 0 1).
Proof. unfold rspace_ok. cbn. repeat constructor; cbn; intuition discriminate. Qed.
Lemma order0 : in_order (spaces0 2 0) (spaces0 0 0).
Proof.
  intros i i' t t' (x & y & Hx & Hy & E) (x' & y' & Hx' & Hy' & E') Hle. destruct t as [|t]; [|cbn in Hy; destruct t; discriminate]. destruct t' as [|t']; [|cbn in Hy'; destruct t'; discriminate].
  cbn in Hy, Hy'. injection Hy as <-. injection Hy' as <-. destruct i as [|[|[|i]]]; cbn in Hx; try discriminate; injection Hx as <-; [|discriminate]. lia.
Qed.
(** an operator on the larger space *)
Definition c2 : components := [([(0, 0); (1, 1)]%nat, [Mat 2 2 (fun i j => INR (1 + i + 3 * j)); block0 9]); ([], []); ([], [])].
Definition F2 : element := fun _ x N' y N => if rlab_eqb x y then (if lab_L x =? 0 then INR (1 + Z.to_nat (N' / 2) + 3 * Z.to_nat (N / 2)) else 9%R) else 0%R.
Lemma held2 : held (spaces0 2 0) scalar0 c2 F2.
Proof.
  split; [reflexivity|]. intros T0 HT. destruct (Z.eq_dec T0 0) as [->|Hne].
  - eexists _, _. split; [reflexivity|]. split; [repeat constructor; cbn; intuition discriminate|]. split; [reflexivity|]. split.
    + intros i k. split.
      * intros [E|[E|[]]]; injection E as <- <-; (split; [unfold in_range; cbn; lia|]); (split; [lia|]); eexists _, _; (split; [reflexivity|]); (split; [reflexivity|]); repeat split; cbn; lia.
      * intros (_ & Hik & x & y & Hx & Hy & R1 & R2 & R3). destruct i as [|[|[|i]]]; cbn in Hx; try discriminate; destruct k as [|[|[|k]]]; cbn in Hy; try discriminate; injection Hx as <-; injection Hy as <-; cbn in *; try lia; try discriminate; auto.
    + intros q i k x y Hq Hx Hy. destruct q as [|[|[|q]]]; cbn in Hq; try discriminate; injection Hq as <- <-; cbn in Hx, Hy; injection Hx as <-; injection Hy as <-; eexists; (split; [reflexivity|]); (split; [reflexivity|]); (split; [reflexivity|]); intros u v Hu Hv _.
      * cbn in Hu, Hv. destruct u as [|[|u]]; try lia; destruct v as [|[|v]]; try lia; reflexivity.
      * reflexivity.
  - exists [], []. split; [assert (C : T0 = 1 \/ T0 = 2) by lia; destruct C as [-> | ->]; reflexivity|]. split; [constructor|]. split; [reflexivity|]. split.
    + intros i k. split; [intros []|]. unfold in_range. cbn. lia.
    + intros [|q] i k x y Hq; discriminate.
Qed.
Definition disk2 (f : string) : option (relfile components) := if String.eqb f "a.dat" then Some (RelFile scalar0 2 0 c2) else None.
(** transformation to the smaller space without a change of length: one element is left *)
Lemma xf_case : forall ov schedule, exists c m, xf_main lib0 ov schedule disk2 (in_xform 0 1) = Ok ("b.dat"%string, RelFile scalar0 0 0 c)
  /\ nth_error c 0 = Some ([(0, 0)]%nat, [m]) /\ rows m = 1%nat /\ cols m = 1%nat /\ at_ m 0 0 = 1%R.
Proof.
  intros ov schedule. destruct (xf_equal ov schedule lib0 disk2 (in_xform 0 1) (XParams "a.dat" 0 1 500 "b.dat") (RelFile scalar0 2 0 c2) F2) as (c & E & L & H); try reflexivity.
  - apply xf_read_iff. reflexivity.
  - exact rel_space_20.
  - exact rel_space_00.
  - exact order0.
  - cbn. lia.
  - exact held2.
  - cbn [x_target x_Nmax rf_o rf_Jmax rf_Nmax] in *. destruct (H 0 ltac:(lia)) as (s & ms & Hn & Nd & Hl & Hin & Hv).
    assert (Es : s = [(0, 0)]%nat).
    { assert (A : forall p, In p s -> p = (0, 0)%nat). { intros [i k] Hp. apply Hin in Hp. destruct Hp as (_ & Hik & x & y & Hx & Hy & _). destruct i as [|i]; [|cbn in Hx; destruct i; discriminate]. destruct k as [|k]; [|cbn in Hy; destruct k; discriminate]. reflexivity. }
      assert (I0 : In (0, 0)%nat s). { apply Hin. split; [unfold in_range; cbn; lia|]. split; [lia|]. eexists _, _. split; [reflexivity|]. split; [reflexivity|]. repeat split; cbn; lia. }
      destruct s as [|a [|b s]]; [destruct I0|rewrite (A a) by (left; reflexivity); reflexivity|]. inversion Nd as [|? ? N1 _]; subst. elim N1. left. rewrite (A a) by (left; reflexivity). rewrite (A b) by (right; left; reflexivity). reflexivity. }
    subst s. destruct (Hv 0%nat 0%nat 0%nat (RSub 0 0 0 1 0 1%nat) (RSub 0 0 0 1 0 1%nat) eq_refl eq_refl eq_refl) as (m & Hm & R1 & R2 & A).
    exists c, m. split; [exact E|]. split; [|split; [exact R1|split; [exact R2|]]].
    + change (Z.to_nat 0) with 0%nat in Hn. rewrite Hn. destruct ms as [|a [|b ms]]; try discriminate. cbn in Hm. injection Hm as <-. reflexivity.
    + rewrite (A 0%nat 0%nat) by (cbn; lia). unfold up_to, F2. cbn. reflexivity.
Qed.
(** a ratio of lengths of zero *)
Lemma ratio_case : forall ov schedule, xf_main lib0 ov schedule disk2 (in_xform 0 0) = AssertFail.
Proof.
  intros ov schedule. apply (xf_ratio ov schedule lib0 disk2 (in_xform 0 0) (XParams "a.dat" 0 0 500 "b.dat") (RelFile scalar0 2 0 c2)); [apply xf_read_iff; reflexivity|reflexivity|cbn; lra|].
  exists 0%nat, 0%nat, (RSub 0 0 0 1 0 2%nat), (RSub 0 0 0 1 0 1%nat). repeat split.
Qed.

(** ** an interaction: v in 1S0, w in 3S1 *)
Definition V0 (v w : R) : potential := fun J _ _ _ _ _ => if J =? 0 then v else w.
Definition head (J S_ L : Z) : line := [TInt J; TInt S_; TInt L; TInt L; TInt 1; TInt 1; TNum 0%R; TNum 0%R; TInt 1].
Definition file0 (v w : R) : textfile := ([head 0 0 0; [TNum v]; head 1 1 0; [TNum w]; [TInt 99999]], true).
Lemma V0_symmetric : forall v w, symmetric_V (V0 v w).
Proof. intros v w J S_ L i L' j. reflexivity. Qed.
Lemma file0_ok : forall v w, interaction_file 3 (spaces0 0 1) 1 (V0 v w) (file0 v w).
Proof.
  intros v w. exists [(JB 0 0 0 0 1 [v], (0, 0)%nat); (JB 1 1 0 0 1 [w], (1, 1)%nat)], [[head 0 0 0; [TNum v]]; [head 1 1 0; [TNum w]]], [], [], true.
  split; [reflexivity|]. split; [|split; [cbn; lia|split]].
  - constructor; [|constructor; [|constructor]]; cbn [fst snd]; split.
    + exists 1, 1, (TNum 0%R), (TNum 0%R), [[TNum v]], 0%R, 0%R. split; [reflexivity|]. split; [reflexivity|]. split; [cbn; lia|]. split; [reflexivity|]. split; [reflexivity|]. split; [constructor; [reflexivity|constructor]|]. split; [reflexivity|]. right. discriminate.
    + unfold block_between, sub_for. cbn. repeat (split; [lia || reflexivity|]). eexists _, _. split; [reflexivity|]. split; [reflexivity|]. cbn. repeat split; reflexivity.
    + exists 1, 1, (TNum 0%R), (TNum 0%R), [[TNum w]], 0%R, 0%R. split; [reflexivity|]. split; [reflexivity|]. split; [cbn; lia|]. split; [reflexivity|]. split; [reflexivity|]. split; [constructor; [reflexivity|constructor]|]. split; [reflexivity|]. right. discriminate.
    + unfold block_between, sub_for. cbn. repeat (split; [lia || reflexivity|]). eexists _, _. split; [reflexivity|]. split; [reflexivity|]. cbn. repeat split; reflexivity.
  - constructor; [|constructor; [|constructor]]; intros i j Hij Hj; cbn in *; assert (i = 0%nat) by lia; assert (j = 0%nat) by lia; subst; reflexivity.
  - intros i k x y u v' Hik Hx Hy (R1 & R2 & _) Hu Hv _. unfold couples in *. destruct i as [|[|[|i]]]; cbn in Hx; try discriminate; destruct k as [|[|[|k]]]; cbn in Hy; try discriminate; injection Hx as <-; injection Hy as <-; cbn in *; try lia;
      assert (u = 0%nat) by lia; assert (v' = 0%nat) by lia; subst.
    + eexists. split; [left; reflexivity|]. split; [reflexivity|]. cbn. discriminate.
    + eexists. split; [right; left; reflexivity|]. split; [reflexivity|]. cbn. discriminate.
Qed.
Definition disk_v (v w : R) (f : string) : option textfile := if String.eqb f "v.jpv" then Some (file0 v w) else None.
Lemma jpv_case : forall v w, exists c, jpv_main lib0 3 (disk_v v w) in_jpv = Some (Ok ("in.dat"%string, RelFile scalar0 0 1 c)) /\ held (spaces0 0 1) scalar0 c (isoscalar_rme (V0 v w)).
Proof.
  intros v w. apply (jpv_isoscalar 3 (disk_v v w) lib0 in_jpv (JParams 0 1 0 ["v.jpv"%string] "in.dat") (V0 v w) "v.jpv" (file0 v w)); try reflexivity.
  - apply jpv_read_iff. reflexivity. - apply rel_space_01. - apply rspace_ok0. - apply V0_symmetric. - apply file0_ok.
Qed.
(** a missing file *)
Lemma jpv_missing_case : forall v w, jpv_main lib0 3 (disk_v v w) in_jpv3 = Some Exit.
Proof. reflexivity. Qed.
(** interactions of two protons (in 1S0), and of a proton and a neutron, which are different *)
Definition disk_3 (f : string) : option textfile :=
  if String.eqb f "pp.jpv" then Some (file0 1 0) else if String.eqb f "nn.jpv" then Some (file0 4 0) else if String.eqb f "pn.jpv" then Some (file0 7 2) else None.
Definition V3 (Tz : Z) : potential := if Tz =? 1 then V0 1 0 else if Tz =? -1 then V0 4 0 else V0 7 2.
Lemma species_case : exists c, jpv_main lib0 3 disk_3 in_jpv3 = Some (Ok ("in.dat"%string, RelFile (OpLab 0 0 0 2) 0 1 c)) /\ held (spaces0 0 1) (OpLab 0 0 0 2) c (species_rme V3).
Proof.
  apply (jpv_species 3 disk_3 lib0 in_jpv3 (JParams 0 1 2 ["pp.jpv"; "nn.jpv"; "pn.jpv"]%string "in.dat") V3 "pp.jpv" "nn.jpv" "pn.jpv" (file0 1 0) (file0 4 0) (file0 7 2)); try reflexivity; try apply file0_ok.
  - apply jpv_read_iff. reflexivity. - apply rel_space_01. - apply rspace_ok0. - intros Tz. unfold V3. destruct (Tz =? 1); [|destruct (Tz =? -1)]; apply V0_symmetric.
Qed.
(** its isoscalar part in 1S0 is the mean, 4, and that of 3S1 that of proton and neutron *)
Lemma species_value_case : species_rme V3 0 (0, 0, 0, 1) 0 (0, 0, 0, 1) 0 = 4%R /\ species_rme V3 0 (0, 1, 1, 0) 0 (0, 1, 1, 0) 0 = 2%R /\ species_rme V3 1 (0, 1, 1, 0) 0 (0, 1, 1, 0) 0 = 0%R.
Proof.
  split; [|split; reflexivity]. unfold species_rme, isospin_component. cbn [same_pair Z.eqb andb Pos.eqb lsum]. use_cg. unfold potential_at, V3, V0. cbn [Z.eqb Pos.eqb]. 
  cbn -[IZR Rplus Rmult Rdiv]. lra.
Qed.
(** followed by moshinsky *)
Definition basis_with (c : components) : basislib := BasisLib
  (fun _ => ls0) (fun _ _ => ls0) (fun _ _ => jj0) (fun _ _ => jt0) (fun _ _ _ => pn0) sectors0
  (fun _ _ c _ => Ok c) (fun _ _ c _ _ => Ok c) (fun _ _ c _ => Ok c) (fun _ => Ok (scalar0, rel0, c)) (fun _ => Exit) (fun _ => true).
Lemma ready_case : forall c, ready (basis_with c) one5 scalar0 0 p_rel_h2 pn0.
Proof.
  intros c. split; [reflexivity|]. split; [reflexivity|]. split; [split; [repeat constructor; cbn; lia|exact (MosCase.spaces0 true 0 0 TwoBody 0)]|]. split; [exact (jj_spaces0 true 0 0 TwoBody 0)|].
  split; [exact (pn_spaces0 true 0 0 TwoBody 0 0)|]. split; [reflexivity|cbn; lia].
Qed.
Lemma chain_case : forall tol v w, exists c bs, jpv_main lib0 3 (disk_v v w) in_jpv = Some (Ok ("in.dat"%string, RelFile scalar0 0 1 c))
  /\ mos_main one6 one7 one7 one9 one5 tol (basis_with c) (-1) in_rel_h2 = Ok (Some ("out.bin"%string, FH2 15099 bs))
  /\ h2_blocks tol scalar0 pn0 [(0, 0); (1, 1); (2, 2); (3, 3)]%nat (jt_rme jt0 (jj_rme one7 (tb_rme one9 (relcm_rme one6 one7 1 0 (isoscalar_rme (V0 v w)))))) bs.
Proof.
  intros tol v w. destruct (jpv_case v w) as (c & E & _). exists c.
  destruct (jpv_then_moshinsky one6 one7 one7 one9 one5 tol (basis_with c) lib0 3 (disk_v v w) in_jpv (JParams 0 1 0 ["v.jpv"%string] "in.dat") (V0 v w) "v.jpv" (file0 v w) p_rel_h2 pn0) as (f & E' & K); try reflexivity.
  - apply jpv_read_iff. reflexivity. - exact rel_space_01. - apply V0_symmetric. - apply file0_ok. - intros T0 J T _ _. reflexivity. - intros T0 T T' Jr lc J Jr' J' _ _ _ _. unfold one7, one5. ring.
  - cbn [j_target] in E'. rewrite E in E'. injection E' as <-. destruct (K eq_refl) as (bs & Eb & Hb); [|apply ready_case|].
    + exists c. split; [reflexivity|]. intros F HF. exact HF.
    + exists bs. split; [exact E|]. split; [|exact Hb]. unfold mos_main. rewrite (proj1 input_case). cbn [bind]. exact Eb.
Qed.

(** ** relative-gen: the Coulomb interaction in the space of no quanta *)
Definition in_coul (species : string) (T0_min T0_max : Z) : list (list word) :=
  [[iw "0" 0; iw "0" 0; iw "T0_min" T0_min; iw "T0_max" T0_max]; [iw "0" 0]; [tx "coulomb"; tx species; iw "500" 500]; [tx "coul.dat"]].
Definition in_rsqr (T0_min T0_max : Z) : list (list word) := [[iw "0" 0; iw "0" 0; iw "T0_min" T0_min; iw "T0_max" T0_max]; [iw "0" 0]; [tx "rsqr"]; [tx "r2.dat"]].
Section Generation.
Variable racah1 racah2 : Z -> Z -> Z -> Z -> Z -> Z -> Z -> R.
Variable w3j w6j : Z -> Z -> Z -> Z -> Z -> Z -> R.
Variable jrme : Z -> Z -> R.
Variable tgamma : R -> R.
Variable quad : list R -> list fl -> num.
Variable racah12 : Z -> Z -> Z -> Z -> Z -> Z -> Z -> Z -> Z -> R.
Variable crme : Z -> Z -> Z -> R.
Variable jhalf : R.
Variable cj1 cj2 : Z -> Z -> R.
Variable inverse_r : Z -> Z -> Z -> Z -> R.
Variable daejeon : option (oplab -> rspace -> outcome ncomponents).
Notation gen_main := (gen_main racah1 racah2 w3j w6j jrme tgamma quad racah12 crme jhalf cj1 cj2 inverse_r daejeon lib0).
Lemma coul_run : forall species t T0_min T0_max, In (species, t) species_types -> 0 <= T0_min -> T0_max <= 2 ->
  exists c, gen_main (in_coul species T0_min T0_max) = Ok ("coul.dat"%string, RelFile (OpLab 0 0 T0_min T0_max) 0 1 c)
  /\ stores_num (spaces0 0 1) (OpLab 0 0 T0_min T0_max) c (coulomb_rme (inverse_r 500) t).
Proof.
  intros species t lo hi Hs Hlo Hhi. destruct (coulomb_stored (inverse_r 500) t 0 (spaces0 0 1) (OpLab 0 0 lo hi) (proj1 (proj2 rel_space_01)) rspace_ok0 eq_refl eq_refl Hlo Hhi) as (z & c & Ez & Ec & S).
  cbn [o_T0_min o_T0_max] in *. exists (num_components c). split; [|exact S].
  assert (Er : gen_read (has_daejeon daejeon) (in_coul species lo hi) = Ok (GParams (OpLab 0 0 lo hi) 0 1 "coulomb" (ACoulomb t 500) "coul.dat")).
  { destruct Hs as [E|[E|[E|[]]]]; injection E as <- <-; reflexivity. }
  unfold RgnModel.gen_main. rewrite Er. cbn [bind]. unfold gen_run, gen_populate. cbn -[zero_components coulomb num_components spaces0]. rewrite Ez. cbn [bind]. change (space_of lib0 0 1) with (spaces0 0 1). rewrite Ec. reflexivity.
Qed.
Lemma gen_case : exists c, gen_main (in_coul "p" 0 2) = Ok ("coul.dat"%string, RelFile (OpLab 0 0 0 2) 0 1 c) /\ stores_num (spaces0 0 1) (OpLab 0 0 0 2) c (coulomb_rme (inverse_r 500) OpP)
  /\ coulomb_rme (inverse_r 500) OpP 0 (0, 0, 0, 1) 0 (0, 0, 0, 1) 0 = (1 / 3 * (1 / sqrt 2 * inverse_r 500%Z 0%Z 0%Z 0%Z))%R.
Proof. destruct (coul_run "p" OpP 0 2 (or_introl eq_refl) ltac:(lia) ltac:(lia)) as (c & E & S). exists c. split; [exact E|]. split; [exact S|]. reflexivity. Qed.
(** no isoscalar component among the labels: the file of the Coulomb interaction of any two nucleons holds zeros only; the square radius with the same labels is refused *)
Lemma total_zero : exists c, gen_main (in_coul "total" 1 1) = Ok ("coul.dat"%string, RelFile (OpLab 0 0 1 1) 0 1 c) /\ stores_num (spaces0 0 1) (OpLab 0 0 1 1) c no_element
  /\ gen_main (in_rsqr 1 1) = AssertFail.
Proof.
  destruct (coul_run "total" OpTotal 1 1 ltac:(cbn; auto) ltac:(lia) ltac:(lia)) as (c & E & L & S). exists c. split; [exact E|]. split; [|reflexivity]. split; [exact L|].
  intros T0 HT. destruct (S T0 HT) as (s & ms & Hn & Nd & Hl & Hin & Hv). exists s, ms. repeat (split; [assumption|]). intros q i k x y Hq Hx Hy. destruct (Hv q i k x y Hq Hx Hy) as (m & Hm & R1 & R2 & A).
  exists m. repeat (split; [assumption|]). intros u v Hu Hv'. rewrite (A u v Hu Hv'). f_equal. unfold no_element, coulomb_rme. destruct (rl x) as [[[L' S'] J'] T'], (rl y) as [[[Ly Sy] Jy] Ty].
  assert (Hr : in_range (OpLab 0 0 1 1) T0) by (apply (Hin i k); exact (nth_error_In _ _ Hq)). unfold in_range in Hr. cbn in Hr. assert (T0 = 1) as -> by lia. destruct (rlab_eqb _ _); [|reflexivity]. unfold species_part. cbn. ring.
Qed.
(** isoscalar component only: two neutrons have a third of the interaction of protons *)
Lemma neutrons_third : exists c, gen_main (in_coul "p" 0 0) = Ok ("coul.dat"%string, RelFile (OpLab 0 0 0 0) 0 1 c)
  /\ (exists sectors ms q m, nth_error c 0 = Some (sectors, ms) /\ nth_error sectors q = Some (0, 0)%nat /\ nth_error ms q = Some m /\ at_ m 0 0 = Num (1 / 3 * (1 / sqrt 2 * inverse_r 500%Z 0%Z 0%Z 0%Z))%R)
  /\ nth_error c 1 = Some ([], []) /\ nth_error c 2 = Some ([], []) /\ forall v, branched (-1) v 0 0 = v.
Proof.
  destruct (coul_run "p" OpP 0 0 (or_introl eq_refl) ltac:(lia) ltac:(lia)) as (c & E & S). exists c. split; [exact E|].
  assert (Hz : forall T0, 1 <= T0 <= 2 -> nth_error c (Z.to_nat T0) = Some ([], [])).
  { intros T0 HT. destruct (proj2 S T0 ltac:(lia)) as (s & ms & Hn & _ & Hl & Hin & _). rewrite Hn. destruct s as [|[i k] s]; [destruct ms; [reflexivity|discriminate]|].
    assert (Hr : in_range (OpLab 0 0 0 0) T0) by (apply (Hin i k); left; reflexivity). unfold in_range in Hr. cbn in Hr. lia. }
  split; [|split; [exact (Hz 1 ltac:(lia))|split; [exact (Hz 2 ltac:(lia))|]]].
  - destruct (proj2 S 0 ltac:(lia)) as (s & ms & Hn & _ & _ & Hin & Hv). assert (I0 : In (0, 0)%nat s).
    { apply Hin. split; [unfold in_range; cbn; lia|]. split; [lia|]. eexists _, _. split; [reflexivity|]. split; [reflexivity|]. repeat split; cbn; lia. }
    apply In_nth_error in I0. destruct I0 as [q Hq]. destruct (Hv q 0%nat 0%nat _ _ Hq eq_refl eq_refl) as (m & Hm & _ & _ & A). exists s, ms, q, m. repeat (split; [assumption|]). rewrite (A 0%nat 0%nat) by (cbn; lia). reflexivity.
  - intros v. unfold branched. use_cg. ring.
Qed.
(** components of isospin above 2 *)
Lemma isospin_three : gen_main (in_rsqr 0 3) = UB /\ gen_main (in_rsqr (-1) 0) = UB /\ gen_main (in_coul "total" 0 3) = UB /\ gen_main (in_coul "total" (-1) 0) = UB.
Proof. repeat split; reflexivity. Qed.
End Generation.
