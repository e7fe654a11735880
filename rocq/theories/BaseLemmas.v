(** Lemmas about machine integers, byte encodings and loops. *)
From Coq Require Import List ZArith Lia Bool FinFun.
From Verif Require Import Base.
Import ListNotations.
Open Scope Z_scope.

Lemma bind_ok : forall A B (m : outcome A) (k : A -> outcome B) b,
  bind m k = Ok b -> exists a, m = Ok a /\ k a = Ok b.
Proof. intros A B [a| | |] k b H; simpl in H; try discriminate. eauto. Qed.

Lemma check_ok : forall b u, check b = Ok u -> b = true.
Proof. intros [] u H; [reflexivity|discriminate]. Qed.
Lemma cassert_ok : forall b u, cassert b = Ok u -> b = true.
Proof. intros [] u H; [reflexivity|discriminate]. Qed.
Lemma get_ok : forall A (o : option A) a, get o = Ok a -> o = Some a.
Proof. intros A [x|] a H; [injection H as ->; reflexivity|discriminate]. Qed.

Ltac inv_ok :=
  repeat match goal with
  | H : bind _ _ = Ok _ |- _ =>
      let x := fresh "x" in let H1 := fresh "H" in let H2 := fresh "H" in
      apply bind_ok in H; destruct H as (x & H1 & H2);
      try match type of x with prod _ _ => destruct x | unit => destruct x end
  | H : check _ = Ok _ |- _ => apply check_ok in H
  | H : cassert _ = Ok _ |- _ => apply cassert_ok in H
  | H : get _ = Ok _ |- _ => apply get_ok in H
  | H : Ok _ = Ok _ |- _ => injection H; clear H; intros; subst
  | H : Exit = Ok _ |- _ => discriminate H
  | H : UB = Ok _ |- _ => discriminate H
  | H : AssertFail = Ok _ |- _ => discriminate H
  end.

(** ** machine integers *)
Lemma i32_id : forall z, in_i32 z = true -> i32 z = z.
Proof.
  intros z H. unfold in_i32, i32, two31, two32 in *.
  apply andb_true_iff in H. destruct H as [H1 H2].
  apply Z.leb_le in H1. apply Z.ltb_lt in H2.
  rewrite Z.mod_small by lia. lia.
Qed.
Lemma i64_id : forall z, in_i64 z = true -> i64 z = z.
Proof.
  intros z H. unfold in_i64, i64, two63, two64 in *.
  apply andb_true_iff in H. destruct H as [H1 H2].
  apply Z.leb_le in H1. apply Z.ltb_lt in H2.
  rewrite Z.mod_small by lia. lia.
Qed.
Lemma i32_mod : forall z, i32 (z mod two32) = i32 z.
Proof.
  intros z. unfold i32. f_equal.
  rewrite Zplus_mod_idemp_l. reflexivity.
Qed.
Lemma i64_mod : forall z, i64 (z mod two64) = i64 z.
Proof.
  intros z. unfold i64. f_equal.
  rewrite Zplus_mod_idemp_l. reflexivity.
Qed.
Lemma i32_range : forall z, in_i32 (i32 z) = true.
Proof.
  intros z. unfold in_i32, i32, two31, two32.
  pose proof (Z.mod_pos_bound (z + 2147483648) 4294967296 ltac:(lia)).
  apply andb_true_iff; split; [apply Z.leb_le|apply Z.ltb_lt]; lia.
Qed.
Lemma i32_idem : forall z, i32 (i32 z) = i32 z.
Proof. intros. apply i32_id, i32_range. Qed.
Lemma in_i32_iff : forall z, in_i32 z = true <-> - two31 <= z < two31.
Proof.
  intros. unfold in_i32. rewrite andb_true_iff, Z.leb_le, Z.ltb_lt. tauto.
Qed.
Lemma in_i64_iff : forall z, in_i64 z = true <-> - two63 <= z < two63.
Proof.
  intros. unfold in_i64. rewrite andb_true_iff, Z.leb_le, Z.ltb_lt. tauto.
Qed.
Lemma in_u64_iff : forall z, in_u64 z = true <-> 0 <= z < two64.
Proof.
  intros. unfold in_u64. rewrite andb_true_iff, Z.leb_le, Z.ltb_lt. tauto.
Qed.
Lemma u64_id : forall z, 0 <= z < two64 -> u64 z = z.
Proof. intros. unfold u64. apply Z.mod_small. assumption. Qed.

(** ** bytes *)
Lemma le_bytes_length : forall n z, length (le_bytes n z) = n.
Proof. induction n; intros; simpl; auto. Qed.

Lemma le_roundtrip : forall n z, 0 <= z < 256 ^ Z.of_nat n -> le_value (le_bytes n z) = z.
Proof.
  induction n; intros z Hz.
  - simpl in *. lia.
  - rewrite Nat2Z.inj_succ, Z.pow_succ_r in Hz by lia.
    cbn [le_bytes le_value].
    rewrite IHn.
    + pose proof (Z.div_mod z 256 ltac:(lia)). lia.
    + split; [apply Z.div_pos; lia|].
      apply Z.div_lt_upper_bound; lia.
Qed.

Lemma le_value_range : forall bs, Forall (fun b => 0 <= b < 256) bs ->
  0 <= le_value bs < 256 ^ Z.of_nat (length bs).
Proof.
  induction 1 as [|b bs Hb Hbs IH].
  - simpl. lia.
  - cbn [le_value length]. rewrite Nat2Z.inj_succ, Z.pow_succ_r by lia. lia.
Qed.

Lemma enc32_length : forall z, length (enc32 z) = 4%nat.
Proof. intros. unfold enc32. apply le_bytes_length. Qed.
Lemma enc64_length : forall z, length (enc64 z) = 8%nat.
Proof. intros. unfold enc64. apply le_bytes_length. Qed.

Lemma dec_enc_u32 : forall z, dec_u32 (enc32 z) = z mod two32.
Proof.
  intros. unfold dec_u32, enc32. apply le_roundtrip.
  change (256 ^ Z.of_nat 4) with two32.
  apply Z.mod_pos_bound. unfold two32. lia.
Qed.
Lemma dec_enc_i32 : forall z, dec_i32 (enc32 z) = i32 z.
Proof.
  intros. unfold dec_i32. fold (dec_u32 (enc32 z)). rewrite dec_enc_u32. apply i32_mod.
Qed.
Lemma dec_enc_i64 : forall z, dec_i64 (enc64 z) = i64 z.
Proof.
  intros. unfold dec_i64, enc64. rewrite le_roundtrip.
  - apply i64_mod.
  - change (256 ^ Z.of_nat 8) with two64. apply Z.mod_pos_bound. unfold two64. lia.
Qed.

Lemma flat_enc32_length : forall ws, length (flat_map enc32 ws) = (4 * length ws)%nat.
Proof.
  induction ws as [|w ws IH]; [reflexivity|].
  change (flat_map enc32 (w :: ws)) with (enc32 w ++ flat_map enc32 ws).
  rewrite app_length, enc32_length, IH. simpl length. lia.
Qed.

Lemma dec_words_enc : forall ws, Forall (fun w => 0 <= w < two32) ws ->
  dec_words (length ws) (flat_map enc32 ws) = ws.
Proof.
  induction 1 as [|w ws Hw Hws IH]; [reflexivity|].
  change (flat_map enc32 (w :: ws)) with (enc32 w ++ flat_map enc32 ws).
  cbn [length dec_words].
  rewrite (firstn_app 4), (skipn_app 4), enc32_length.
  change (4 - 4)%nat with 0%nat.
  rewrite firstn_O, app_nil_r, firstn_all2 by (rewrite enc32_length; lia).
  rewrite (skipn_all2 (enc32 w)) by (rewrite enc32_length; lia).
  rewrite skipn_O, app_nil_l, IH, dec_enc_u32, Z.mod_small by assumption.
  reflexivity.
Qed.

Lemma dec_words_length : forall n bs, length (dec_words n bs) = n.
Proof. induction n; intros; simpl; auto. Qed.

(** ** loops *)
Lemma loop2_ext : forall S ix (f g : nat -> nat -> S -> outcome S) s,
  (forall i j s, In (i, j) ix -> f i j s = g i j s) -> loop2 ix f s = loop2 ix g s.
Proof.
  induction ix as [|[i j] ix IH]; intros f g s H; [reflexivity|].
  cbn [loop2]. rewrite (H i j s) by (left; reflexivity).
  destruct (g i j s); simpl; auto.
  apply IH. intros. apply H. right. assumption.
Qed.

Lemma loop2_filter : forall S (skip : nat -> nat -> bool) (body : nat -> nat -> S -> outcome S) ix s,
  loop2 ix (fun i j s => if skip i j then Ok s else body i j s) s
  = loop2 (filter (fun p => negb (skip (fst p) (snd p))) ix) body s.
Proof.
  induction ix as [|[i j] ix IH]; intros s; [reflexivity|].
  cbn [loop2 filter fst snd]. destruct (skip i j); cbn [negb].
  - cbn [bind]. apply IH.
  - cbn [loop2]. destruct (body i j s); simpl; auto.
Qed.

Lemma store_app : forall A (pre : list A) y post x,
  store (pre ++ y :: post) (length pre) x = Ok (pre ++ x :: post).
Proof.
  induction pre as [|a pre IH]; intros; [reflexivity|].
  cbn [app length store]. rewrite IH. reflexivity.
Qed.

Lemma in_pairs : forall nb nk b k, In (b, k) (pairs nb nk) <-> (b < nb /\ k < nk)%nat.
Proof.
  intros. unfold pairs. rewrite in_prod_iff, !in_seq. lia.
Qed.

Lemma NoDup_list_prod : forall A B (la : list A) (lb : list B),
  NoDup la -> NoDup lb -> NoDup (list_prod la lb).
Proof.
  intros A B la lb Ha Hb. induction Ha as [|a la Hn Ha IH]; simpl; [constructor|].
  assert (G : forall l', (forall p, In p l' -> fst p = a) -> NoDup l' -> NoDup (l' ++ list_prod la lb)).
  { induction l' as [|p l' IHl]; intros Hf Hnd; [assumption|].
    inversion Hnd; subst. simpl. constructor.
    - rewrite in_app_iff. intros [Hin|Hin]; [contradiction|].
      destruct p as [p1 p2]. apply in_prod_iff in Hin.
      specialize (Hf (p1, p2) (or_introl eq_refl)). simpl in Hf. subst. tauto.
    - apply IHl; [|assumption]. intros q Hq. apply Hf. right. assumption. }
  apply G.
  - intros p Hp. apply in_map_iff in Hp. destruct Hp as (y & <- & _). reflexivity.
  - apply Injective_map_NoDup; [|assumption]. intros x y Hxy. congruence.
Qed.

Lemma NoDup_pairs : forall nb nk, NoDup (pairs nb nk).
Proof. intros. apply NoDup_list_prod; apply seq_NoDup. Qed.

Lemma Forall2_len : forall A B (R : A -> B -> Prop) l1 l2, Forall2 R l1 l2 -> length l1 = length l2.
Proof. intros A B R l1 l2 H. induction H; simpl; congruence. Qed.
