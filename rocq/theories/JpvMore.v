(** Blocks of a relative interaction file which do not belong to the space. *)
From Coq Require Import List ZArith Reals Bool Lia Lra Ascii.
From Verif Require Import Base RMat OscModel BlockModel ObioModel JpvModel JpvSpec BlockProof JpvProof.
Import ListNotations.
Open Scope Z_scope.
Open Scope outcome_scope.

(** the blocks before *)
Lemma blocks_before : forall bs texts sp Jmax sectors ms x tail nl, rspace_ok sp -> NoDup sectors -> rblocks_ok sp sectors ms ->
  Forall2 (fun p t => block_text (fst p) t /\ belongs sp Jmax sectors (fst p) (snd p)) bs texts ->
  forall depth old, exists ms' old', rblocks_ok sp sectors ms' /\
    read_blocks (length bs + depth) sp Jmax sectors old (St (concat texts ++ x :: tail) nl false false) ms = read_blocks depth sp Jmax sectors old' (St (x :: tail) nl false false) ms'.
Proof.
  intros bs texts sp Jmax sectors ms x tail nl Hs Hn Hm H. revert ms Hm. induction H as [|[b s] t bs texts [Ht Hb] H IH]; intros ms Hm depth old.
  - exists ms, old. split; [exact Hm|reflexivity].
  - cbn [fst snd] in Ht, Hb. pose proof Ht as Ht'. apply head_read in Ht'. destruct Ht' as (h & body & -> & Eh & _).
    destruct (block_read sp Jmax sectors b s h body (concat texts ++ x :: tail) nl ms Hs Hn Hb Hm Ht) as (ms1 & l1 & E1 & Hm1 & Hent).
    { destruct (concat texts); discriminate. }
    destruct (IH ms1 Hm1 depth l1) as (ms' & old' & Hm' & E). exists ms', old'. split; [exact Hm'|]. rewrite <- E.
    cbn [length plus read_blocks concat app]. unfold raw_line. cbn [st_fail st_eof st_rest st_nl orb]. rewrite Eh.
    rewrite is_nil_app, <- app_assoc. cbn [andb]. unfold line in *. rewrite E1. reflexivity.
Qed.
Lemma bad_block : forall bs texts sp Jmax sectors ms b text tail nl depth (o : outcome (blocks R)), rspace_ok sp -> NoDup sectors -> rblocks_ok sp sectors ms ->
  Forall2 (fun p t => block_text (fst p) t /\ belongs sp Jmax sectors (fst p) (snd p)) bs texts -> block_text b text ->
  (block_sector sp Jmax sectors (head_of b) = AssertFail /\ o = AssertFail \/ block_sector sp Jmax sectors (head_of b) = Exit /\ o = Exit) ->
  (length bs < depth)%nat -> read_jpv depth sp Jmax sectors (concat texts ++ text ++ tail) nl ms = Some o.
Proof.
  intros bs texts sp Jmax sectors ms b text tail nl depth o Hs Hn Hm H Ht Ho Hd. unfold read_jpv, open_text.
  apply head_read in Ht. destruct Ht as (h & body & -> & Eh & _). replace depth with (length bs + S (depth - length bs - 1))%nat by lia.
  destruct (blocks_before bs texts sp Jmax sectors ms h (body ++ tail) nl Hs Hn Hm H (S (depth - length bs - 1)) []) as (ms' & old' & Hm' & E).
  cbn [app]. unfold line in *. rewrite E. cbn [read_blocks]. unfold raw_line. cbn [st_fail st_eof st_rest st_nl orb]. rewrite Eh. unfold read_block.
  destruct Ho as [[Ho ->]|[Ho ->]]; rewrite Ho; reflexivity.
Qed.
Lemma high_J : forall sp Jmax sectors b, Jmax < jb_J b -> block_sector sp Jmax sectors (head_of b) = AssertFail.
Proof.
  intros sp Jmax sectors b H. unfold block_sector. cbn [head_of h_Lp h_L h_J h_S]. replace (jb_J b <=? Jmax) with false by (symmetry; apply Z.leb_gt; exact H).
  destruct (jb_second b >? jb_first b); reflexivity.
Qed.
Lemma other_parity : forall sp Jmax sectors b, 0 <= jb_S b -> 0 <= jb_first b -> 0 <= jb_second b -> (jb_first b + jb_second b) mod 2 = 1 ->
  block_sector sp Jmax sectors (head_of b) = AssertFail.
Proof.
  intros sp Jmax sectors b H0 H1 H2 H. unfold block_sector. cbn [head_of h_Lp h_L h_J h_S].
  assert (E : forall u v, 0 <= u -> 0 <= v -> (u + v) mod 2 = 1 -> (Z.rem (u + jb_S b + 1) 2 =? Z.rem (v + jb_S b + 1) 2) = false).
  { intros u v Hu Hv Huv. apply Z.eqb_neq. rewrite !Z.rem_mod_nonneg by lia. intros C.
    pose proof (Z.div_mod (u + v) 2). pose proof (Z.div_mod (u + jb_S b + 1) 2). pose proof (Z.div_mod (v + jb_S b + 1) 2). lia. }
  destruct (jb_second b >? jb_first b).
  - rewrite E by (try assumption; lia). destruct (jb_J b <=? Jmax); reflexivity.
  - rewrite E by (try assumption; rewrite Z.add_comm; assumption). destruct (jb_J b <=? Jmax); reflexivity.
Qed.
Lemma no_sub : forall sp L S J T g, (forall x, In x sp -> labels_of x <> (L, S, J, T, g)) -> find_sub sp L S J T g = None.
Proof.
  intros sp L S J T g H. destruct (find_sub sp L S J T g) as [i|] eqn:E; [|reflexivity]. exfalso. unfold find_sub in E.
  apply find_ix_some in E. destruct E as (x & E & Hx). apply (H x); [apply nth_error_In with i; exact E|]. unfold has_labels in Hx. unfold labels_of.
  rewrite !andb_true_iff, !Z.eqb_eq in Hx. destruct Hx as ((((-> & ->) & ->) & ->) & ->). reflexivity.
Qed.
Lemma no_subspace : forall sp Jmax sectors b L, jb_J b <= Jmax -> 0 <= jb_S b -> 0 <= jb_first b -> 0 <= jb_second b -> (jb_first b + jb_second b) mod 2 = 0 ->
  L = jb_first b \/ L = jb_second b -> (forall x, In x sp -> ~ sub_for (jb_S b) (jb_J b) L x) -> block_sector sp Jmax sectors (head_of b) = Exit.
Proof.
  intros sp Jmax sectors b L HJ HS H1 H2 Hpar HL Hno. unfold block_sector, head_of. cbn [h_J h_S h_L h_Lp h_dim].
  set (lo := Z.min (jb_first b) (jb_second b)) in *. set (hi := Z.max (jb_first b) (jb_second b)) in *.
  replace (if jb_second b >? jb_first b then (jb_first b, jb_second b) else (jb_second b, jb_first b)) with (lo, hi)
    by (unfold lo, hi; destruct (Z.gtb_spec (jb_second b) (jb_first b)); f_equal; lia).
  cbv iota beta. replace (jb_J b <=? Jmax) with true by (symmetry; apply Z.leb_le; exact HJ). cbn [cassert bind].
  assert (Hlo : 0 <= lo) by (unfold lo; lia). assert (Hhi : 0 <= hi) by (unfold hi; lia).
  assert (Hsum : (lo + hi) mod 2 = 0) by (replace (lo + hi) with (jb_first b + jb_second b) by (unfold lo, hi; lia); exact Hpar).
  assert (HL' : L = lo \/ L = hi) by (unfold lo, hi; lia).
  clearbody lo hi. rewrite !Z.rem_mod_nonneg by lia.
  assert (HT : (lo + jb_S b + 1) mod 2 = (hi + jb_S b + 1) mod 2).
  { apply Z.mod_divide in Hsum; [|lia]. destruct Hsum as (q & Hq). replace (hi + jb_S b + 1) with ((lo + jb_S b + 1) + (q - lo) * 2) by lia.
    symmetry. apply Z_mod_plus_full. }
  rewrite HT, Z.eqb_refl. cbn [cassert bind]. rewrite <- HT at 1.
  destruct HL' as [->| ->].
  - rewrite no_sub; [reflexivity|]. intros x Hx E. apply (Hno x Hx). unfold labels_of in E. injection E as E1 E2 E3 E4 E5. repeat split; assumption.
  - rewrite (no_sub sp hi); [destruct (find_sub _ _ _ _ _ _); reflexivity|]. intros x Hx E. apply (Hno x Hx). unfold labels_of in E. injection E as E1 E2 E3 E4 E5. repeat split; assumption.
Qed.

Definition blocks_then (P : rspace -> Z -> jblock -> Prop) (o : outcome (blocks R)) : Prop :=
  forall bs texts sp Jmax sectors ms b text tail nl depth, rspace_ok sp -> NoDup sectors -> rblocks_ok sp sectors ms ->
  Forall2 (fun p t => block_text (fst p) t /\ belongs sp Jmax sectors (fst p) (snd p)) bs texts -> block_text b text -> P sp Jmax b ->
  (length bs < depth)%nat -> read_jpv depth sp Jmax sectors (concat texts ++ text ++ tail) nl ms = Some o.
Lemma refused_J : blocks_then (fun sp Jmax b => Jmax < jb_J b) AssertFail.
Proof. intros bs texts sp Jmax sectors ms b text tail nl depth Hs Hn Hm H Ht Hp Hd. eapply bad_block; try eassumption. left. split; [|reflexivity]. apply high_J. exact Hp. Qed.
Lemma refused_parity : blocks_then (fun sp Jmax b => 0 <= jb_S b /\ 0 <= jb_first b /\ 0 <= jb_second b /\ (jb_first b + jb_second b) mod 2 = 1) AssertFail.
Proof. intros bs texts sp Jmax sectors ms b text tail nl depth Hs Hn Hm H Ht (P1 & P2 & P3 & P4) Hd. eapply bad_block; try eassumption. left. split; [|reflexivity]. apply other_parity; assumption. Qed.
Lemma refused_space : blocks_then (fun sp Jmax b => jb_J b <= Jmax /\ 0 <= jb_S b /\ 0 <= jb_first b /\ 0 <= jb_second b /\ (jb_first b + jb_second b) mod 2 = 0
  /\ exists L, (L = jb_first b \/ L = jb_second b) /\ forall x, In x sp -> ~ sub_for (jb_S b) (jb_J b) L x) Exit.
Proof. intros bs texts sp Jmax sectors ms b text tail nl depth Hs Hn Hm H Ht (P1 & P2 & P3 & P4 & P5 & L & P6 & P7) Hd. eapply bad_block; try eassumption. right. split; [|reflexivity]. apply (no_subspace _ _ _ _ L); assumption. Qed.
