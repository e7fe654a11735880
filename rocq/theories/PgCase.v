(** Cases for the theorems on pn2rel and relative-filter. *)
From Coq Require Import String List ZArith Reals Bool Lia Lra.
From Verif Require Import Base BaseLemmas RMat OscModel OscSpec OscFinal BlockModel BlockProof ObioModel MixModel MixProof MoshModel JpvModel JpvSpec JpvProof IsoModel IsoSpec IsoFinal PnModel PnSpec PnProof PnFinal TrfModel TrfSpec TrfCase RmeModel RmeSpec RmeProof RelxModel RelxSpec RgModel HmCase MosModel MosSpec MosFile MosCase RgnModel RgnSpec RgnInput RgnProof RgnFile RgnJpv RgnChain RgnCase PgModel PgProof.
Import ListNotations.
Open Scope Z_scope.

Definition digits (s : string) : option Z := if String.eqb s "0" then Some 0 else if String.eqb s "1" then Some 1 else None.
Definition args0 : list string := ["pn2rel"; "0"; "1"; "v.dat"; "in.dat"]%string.
Definition pn_line (p : pline) : line := [TInt (pl_np p); TInt (pl_Lp p); TInt (pl_n p); TInt (pl_L p); TInt (pl_S p); TInt (pl_J p); TInt (pl_Tz p); TNum (pl_me p)].
(** the interactions of RgnCase.V3: in a line the isospin projection of two protons is -1 *)
Definition plines0 : list pline := [PL 0 0 0 0 0 0 (-1) 1; PL 0 0 0 0 0 0 0 7; PL 0 0 0 0 0 0 1 4; PL 0 0 0 0 1 1 0 2].
Definition pn_disk (s : string) : option (list line) := if String.eqb s "v.dat" then Some (map pn_line plines0) else None.
Lemma pn_file_case : pn_interaction (spaces0 0 1) V3 (map pn_line plines0).
Proof.
  exists plines0. split; [|split].
  - repeat constructor; cbn; try lia; try (eexists _, []; split; [reflexivity|split; reflexivity]); unfold sub_for;
     try (eexists; split; [left; reflexivity|]; cbn; repeat split; reflexivity); eexists; (split; [right; left; reflexivity|]); cbn; repeat split; reflexivity.
  - repeat constructor; reflexivity.
  - intros i k x y u v Tz Hik Hx Hy R1 R2 R3 HTz Hu Hv Huv. destruct i as [|[|[|i]]]; cbn in Hx; try discriminate; destruct k as [|[|[|k]]]; cbn in Hy; try discriminate; injection Hx as <-; injection Hy as <-; cbn in *; try lia;
      assert (u = 0%nat) by lia; assert (v = 0%nat) by lia; subst.
    + assert (Tz = -1 \/ Tz = 0 \/ Tz = 1) as [->|[->| ->]] by lia.
      * eexists. split; [left; reflexivity|]. split; reflexivity.
      * eexists. split; [right; left; reflexivity|]. split; reflexivity.
      * eexists. split; [right; right; left; reflexivity|]. split; reflexivity.
    + assert (Tz = 0) as -> by lia. eexists. split; [right; right; right; left; reflexivity|]. split; reflexivity.
Qed.
Lemma V3_symmetric : forall Tz, symmetric_V (V3 Tz).
Proof. intros Tz. unfold V3. destruct (Tz =? 1); [|destruct (Tz =? -1)]; apply V0_symmetric. Qed.
Lemma pn_case : exists c, pn_main lib0 digits pn_disk args0 = Ok ("in.dat"%string, RelFile (OpLab 0 0 0 2) 0 1 c) /\ held (spaces0 0 1) (OpLab 0 0 0 2) c (species_rme V3).
Proof.
  apply (pn_made lib0 digits pn_disk "pn2rel" "0" "1" "v.dat" "in.dat" [] 0 1 V3 (map pn_line plines0)); try reflexivity.
  - apply rel_space_01. - apply rspace_ok0. - apply V3_symmetric. - apply pn_file_case.
Qed.
Lemma pn_refused_case : pn_main lib0 digits pn_disk ["pn2rel"; "0"]%string = Exit /\ pn_main lib0 digits pn_disk ["pn2rel"; "0"; "1"; "w.dat"; "in.dat"]%string = Exit
  /\ pn_main lib0 digits pn_disk ["pn2rel"; "0"; "1"; "v.dat"]%string = UB
  /\ pn_main lib0 digits (fun _ => Some (map pn_line plines0 ++ [[TInt 0; TInt 0]])) args0 = Exit.
Proof.
  split; [reflexivity|]. split; [reflexivity|]. split; [reflexivity|].
  apply (pn_unreadable lib0 digits _ "pn2rel" "0" "1" "v.dat" "in.dat" [] 0 1 (map pn_line plines0) [TInt 0; TInt 0] []); try reflexivity.
  - apply rel_space_01. - apply rspace_ok0. - destruct pn_file_case as (ps & H & _). exists ps. exact H.
  - left. intros p (w & more & E & _). discriminate.
Qed.
Lemma filter_case : forall word, exists c, filter_main lib0 disk2 [["a.dat"; "b.dat"; word]]%string = Ok ("b.dat"%string, RelFile scalar0 2 0 c) /\ held (spaces0 2 0) scalar0 c F2.
Proof. intros word. apply (filter_made lib0 disk2 "a.dat" "b.dat" [word] [] (RelFile scalar0 2 0 c2) F2); try reflexivity; try (cbn; lia). exact held2. Qed.
Lemma filter_refused_case : filter_main lib0 disk2 [["a.dat"]]%string = Exit /\ filter_main lib0 disk2 [["c.dat"; "b.dat"]]%string = Exit /\ filter_main lib0 disk2 [] = Exit.
Proof. repeat split. Qed.
(** pn2rel, then relative-filter *)
Lemma pn_filter_case : exists f g c, pn_main lib0 digits pn_disk args0 = Ok ("in.dat"%string, f) /\ filter_main lib0 (fun s => if String.eqb s "in.dat" then Some f else None) [["in.dat"; "out.dat"]]%string = Ok ("out.dat"%string, g)
  /\ rf_c g = c /\ held (spaces0 0 1) (OpLab 0 0 0 2) c (species_rme V3).
Proof.
  destruct pn_case as (c & E & H). destruct (filter_made lib0 (fun s => if String.eqb s "in.dat" then Some (RelFile (OpLab 0 0 0 2) 0 1 c) else None) "in.dat" "out.dat" [] [] (RelFile (OpLab 0 0 0 2) 0 1 c) (species_rme V3)) as (c' & E' & H'); try reflexivity; try (cbn; lia); [exact H|].
  eexists _, _, c'. split; [exact E|]. split; [exact E'|]. split; [reflexivity|exact H'].
Qed.
(** pn2rel, then moshinsky *)
Definition basis_2 (c : components) : basislib := BasisLib
  (fun _ => ls0) (fun _ _ => ls0) (fun _ _ => jj0) (fun _ _ => jt0) (fun _ _ _ => pn0) sectors0
  (fun _ _ c _ => Ok c) (fun _ _ c _ _ => Ok c) (fun _ _ c _ => Ok c) (fun _ => Ok (OpLab 0 0 0 2, rel0, c)) (fun _ => Exit) (fun _ => true).
Lemma gathers_2 : forall flip, gathers flip (fun _ _ c _ => Ok c) (OpLab 0 0 0 2) jj0 jt0.
Proof.
  intros flip c H S _. exists c. split; [reflexivity|]. split; [exact (stores_components _ _ _ _ _ _ _ S)|].
  intros T0 i k x y HT Hik Hx Hy Hr. destruct (S T0 HT) as (s & ms & E & N & I & M).
  assert (K : exists X Y, nth_error jj0 i = Some X /\ nth_error jj0 k = Some Y /\ fst X = JLab (t_J x) (t_T x) (t_g x) 0 /\ fst Y = JLab (t_J y) (t_T y) (t_g y) 0
    /\ snd X = [(with_l s_orb, with_l s_orb)] /\ snd Y = [(with_l s_orb, with_l s_orb)] /\ t_states x = [(s_orb, s_orb)] /\ t_states y = [(s_orb, s_orb)]).
  { destruct i as [|[|[|i]]]; cbn in Hx; try discriminate; destruct k as [|[|[|k]]]; cbn in Hy; try discriminate; injection Hx as <-; injection Hy as <-; eexists _, _; repeat split. }
  destruct K as (X & Y & HX & HY & LX & LY & SX & SY & Sx & Sy).
  assert (Hin : In (i, k) s). { apply I. split; [exact Hik|]. exists X, Y. rewrite LX, LY. auto. }
  apply In_nth_error in Hin. destruct Hin as [q Hq]. destruct (M q i k X Y Hq HX HY) as (m & Em & Er & Ec & Ea).
  exists s, ms, q, m. rewrite Sx, Sy. rewrite SX in Er. rewrite SY in Ec. do 6 (split; [assumption|]). intros u v a b d e Hu Hv _.
  destruct u as [|u]; [|destruct u; discriminate]. destruct v as [|v]; [|destruct v; discriminate]. cbn in Hu, Hv. injection Hu as <- <-. injection Hv as <- <-.
  rewrite (Ea 0%nat 0%nat (with_l s_orb, with_l s_orb) (with_l s_orb, with_l s_orb)) by (rewrite ?SX, ?SY; reflexivity). rewrite LX, LY. reflexivity.
Qed.
Lemma ready_2 : forall c, ready (basis_2 c) one5 (OpLab 0 0 0 2) 0 p_rel_h2 pn0.
Proof.
  intros c. split; [reflexivity|]. split; [reflexivity|]. split; [split; [repeat constructor; cbn; lia|exact (MosCase.spaces0 true 0 0 TwoBody 0)]|].
  split; [split; [exact jj0_space|]; split; [exact jj0_complete|]; split; [exact jt0_space|apply gathers_2]|].
  split; [exists ByPN; split; [right; left; reflexivity|]; split; [reflexivity|]; split; [exact (sectors0_ok 0)|apply states0]|]. split; [reflexivity|cbn; lia].
Qed.
Lemma pn_chain_case : forall tol, exists c bs, pn_main lib0 digits pn_disk args0 = Ok ("in.dat"%string, RelFile (OpLab 0 0 0 2) 0 1 c)
  /\ mos_main one6 one7 one7 one9 one5 tol (basis_2 c) (-1) in_rel_h2 = Ok (Some ("out.bin"%string, FH2 15099 bs))
  /\ h2_blocks tol (OpLab 0 0 0 2) pn0 [(0, 0); (1, 1); (2, 2); (3, 3)]%nat (jt_rme jt0 (jj_rme one7 (tb_rme one9 (relcm_rme one6 one7 1 0 (species_rme V3))))) bs.
Proof.
  intros tol. destruct pn_case as (c & E & _). exists c.
  destruct (pn_then_moshinsky one6 one7 one7 one9 one5 tol (basis_2 c) lib0 digits pn_disk "pn2rel" "0" "1" "v.dat" "in.dat" [] 0 1 V3 (map pn_line plines0) p_rel_h2 pn0) as (f & E' & K); try reflexivity.
  - exact rel_space_01. - apply V3_symmetric. - apply pn_file_case. - intros T0 J T _ _. reflexivity. - intros T0 T T' Jr lc J Jr' J' _ _ _ _. unfold one7, one5. ring.
  - unfold args0 in E. rewrite E in E'. injection E' as <-. destruct (K eq_refl) as (bs & Eb & Hb); [|apply ready_2|].
    + exists c. split; [reflexivity|]. intros F HF. exact HF.
    + exists bs. split; [exact E|]. split; [|exact Hb]. unfold mos_main. rewrite (proj1 input_case). cbn [bind]. exact Eb.
Qed.
(** jpv2rel, relative-filter, then moshinsky *)
Lemma filter_chain_case : forall tol v w, exists f c bs, jpv_main lib0 3 (disk_v v w) in_jpv = Some (Ok ("in.dat"%string, f))
  /\ filter_main lib0 (fun s => if String.eqb s "in.dat" then Some f else None) [["in.dat"; "in.dat"]]%string = Ok ("in.dat"%string, RelFile scalar0 0 1 c)
  /\ mos_main one6 one7 one7 one9 one5 tol (basis_with c) (-1) in_rel_h2 = Ok (Some ("out.bin"%string, FH2 15099 bs))
  /\ h2_blocks tol scalar0 pn0 [(0, 0); (1, 1); (2, 2); (3, 3)]%nat (jt_rme jt0 (jj_rme one7 (tb_rme one9 (relcm_rme one6 one7 1 0 (isoscalar_rme (V0 v w)))))) bs.
Proof.
  intros tol v w. destruct (jpv_case v w) as (c0 & E0 & Hh). pose (disk := fun s => if String.eqb s "in.dat" then Some (RelFile scalar0 0 1 c0) else None).
  destruct (filter_made lib0 disk "in.dat" "in.dat" [] [] (RelFile scalar0 0 1 c0) (isoscalar_rme (V0 v w))) as (c & E & _); try reflexivity; try (cbn; lia); [exact Hh|].
  destruct (filter_then_moshinsky one6 one7 one7 one9 one5 tol (basis_with c) lib0 disk "in.dat" "in.dat" [] [] (RelFile scalar0 0 1 c0) (isoscalar_rme (V0 v w)) p_rel_h2 pn0) as (f & E' & K); try reflexivity; try (cbn; lia).
  - exact rel_space_01. - exact Hh. - apply isoscalar_hermitian; [|apply V0_symmetric]. intros T0 J T _ _. reflexivity. - intros T0 J T _ _. reflexivity. - intros T0 T T' Jr lc J Jr' J' _ _ _ _. unfold one7, one5. ring.
  - rewrite E in E'. injection E' as <-. destruct (K eq_refl) as (bs & Eb & Hb); [|apply ready_case|].
    + exists c. split; [reflexivity|]. intros F HF. exact HF.
    + exists (RelFile scalar0 0 1 c0), c, bs. split; [exact E0|]. split; [exact E|]. split; [|exact Hb]. unfold mos_main. rewrite (proj1 input_case). cbn [bind]. exact Eb.
Qed.
