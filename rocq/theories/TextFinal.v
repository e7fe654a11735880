(** The text form of TextModel.v inside an H2 file. *)
From Coq Require Import ZArith List Bool Lia.
From Verif Require Import Base BaseLemmas H2Model H2Spec TextModel TextProof.
Import ListNotations.

Section Text.
Variable E : env.
Variable text_of : ptext -> txt E.
Hypothesis format : forall x, fmt_f E x = text_of (printed x).

Lemma same_line : forall f n bra ket b k x y, printed x = printed y ->
  out_line E f n bra ket b k x = out_line E f n bra ket b k y.
Proof. intros f n bra ket b k x y H. unfold out_line. rewrite !format, H. reflexivity. Qed.

Lemma same_lines : forall f ix i m m' c,
  (forall s bi ki x y, out_element E c s m bi ki = Ok x -> out_element E c s m' bi ki = Ok y -> printed x = printed y) ->
  wr_txt E f ix i m c = wr_txt E f ix i m' c.
Proof.
  intros f ix i m m' c H. unfold wr_txt. destruct (nth_error (ix_sectors E ix) i) as [s|]; [|reflexivity].
  cbn [get bind]. destruct (cassert (is_upper s)); try reflexivity. cbn [bind].
  match goal with |- bind ?x _ = _ => destruct x; try reflexivity end. cbn [bind].
  unfold wr_loop_txt. apply loop2_ext. intros bi ki out _. destruct (wskipped f s bi ki); [reflexivity|].
  specialize (H s bi ki). unfold out_element in H |- *.
  destruct (nth_error (ss_states (s_bra s)) bi) as [b|]; [|reflexivity]. cbn [get bind] in *.
  destruct (nth_error (ss_states (s_ket s)) ki) as [k|]; [|reflexivity]. cbn [get bind] in *.
  rewrite (same_line f _ _ _ _ _ _ _ (H _ _ eq_refl eq_refl)). reflexivity.
Qed.

Lemma text_exact : forall x d e,
  correct_reader (fun p => scan_f E (WTxt (text_of p))) -> is_float x -> f_finite x = true -> f_mag x <> 0%Z ->
  printed x = PNum (f_sign x) d e -> fine x e -> via_text E x = x.
Proof.
  intros x d e R Hx Hf H0 Hp F. unfold via_text. rewrite format.
  pose proof (read_back (fun p => scan_f E (WTxt (text_of p))) x d e R Hx Hf H0 Hp F) as Hr. cbn beta in Hr.
  rewrite Hr. reflexivity.
Qed.

Lemma text_lossy : exists x y, is_float x /\ is_float y /\ f_finite x = true /\ f_finite y = true /\ x <> y
  /\ (via_text E x <> x \/ via_text E y <> y \/ scan_f E (WTxt (fmt_f E x)) = None).
Proof.
  exists 1092616202%Z, 1092616203%Z.
  split; [split; [discriminate | reflexivity]|]. split; [split; [discriminate | reflexivity]|].
  split; [reflexivity|]. split; [reflexivity|]. split; [discriminate|].
  assert (P : printed 1092616202 = printed 1092616203) by (vm_compute; reflexivity).
  unfold via_text. rewrite !format, <- P.
  destruct (scan_f E (WTxt (text_of (printed 1092616202)))) as [z|].
  - destruct (Z.eq_dec z 1092616202) as [-> | N]; [right; left; discriminate | left; exact N].
  - right. right. reflexivity.
Qed.
End Text.

Lemma same_text : exists x y, is_float x /\ is_float y /\ f_finite x = true /\ f_finite y = true
  /\ f_mag x <> f_mag y /\ printed x = printed y.
Proof.
  exists 1092616202%Z, 1092616203%Z.
  split; [split; [discriminate | reflexivity]|]. split; [split; [discriminate | reflexivity]|].
  split; [reflexivity|]. split; [reflexivity|]. split; [vm_compute; discriminate | vm_compute; reflexivity].
Qed.

(** ---- a correct reader exists ---- *)
Open Scope Z_scope.

Fixpoint argmin (g : Z -> Z) (l : list Z) : option Z :=
  match l with
  | [] => None
  | z :: l' => match argmin g l' with
               | None => Some z
               | Some y => if g z <? g y then Some z else Some y
               end
  end.

Lemma argmin_some : forall g l z, In z l -> exists y, argmin g l = Some y /\ In y l /\ forall w, In w l -> g y <= g w.
Proof.
  intros g l. induction l as [|a l IH]; intros z H; [destruct H|].
  cbn [argmin]. destruct l as [|b l'].
  - exists a. cbn [argmin]. split; [reflexivity|]. split; [left; reflexivity|].
    intros w [-> | []]. lia.
  - destruct (IH b (or_introl eq_refl)) as (y & Hy & Hin & Hmin). rewrite Hy.
    destruct (g a <? g y) eqn:L.
    + apply Z.ltb_lt in L. exists a. split; [reflexivity|]. split; [left; reflexivity|].
      intros w [-> | Hw]; [lia|]. specialize (Hmin w Hw). lia.
    + apply Z.ltb_ge in L. exists y. split; [reflexivity|]. split; [right; exact Hin|].
      intros w [-> | Hw]; [lia|]. exact (Hmin w Hw).
Qed.

Definition floats_upto (n : nat) (s : bool) : list Z :=
  filter (fun x => f_finite x && Bool.eqb (f_sign x) s) (map Z.of_nat (seq 0 n)).
Definition nearest_reader (n : nat) (p : ptext) : option Z :=
  match p with
  | PNum s d e => argmin (fun y => Z.abs (f_mag y * up e - d * down e)) (floats_upto n s)
  | _ => None
  end.

Lemma floats_upto_in : forall n s x, Z.of_nat n = 2 ^ 32 ->
  In x (floats_upto n s) <-> is_float x /\ f_finite x = true /\ f_sign x = s.
Proof.
  intros n s x Hn. unfold floats_upto. rewrite filter_In, in_map_iff, andb_true_iff, Bool.eqb_true_iff.
  unfold is_float. rewrite <- Hn. split.
  - intros [[i [<- Hi]] H]. apply in_seq in Hi. split; [lia | exact H].
  - intros [Hx H]. split; [|exact H]. exists (Z.to_nat x). split; [apply Z2Nat.id; lia|]. apply in_seq. lia.
Qed.

(** the float of the other sign *)
Lemma opposite : forall z, is_float z -> exists z', is_float z' /\ f_sign z' = negb (f_sign z)
  /\ f_mag z' = f_mag z /\ f_finite z' = f_finite z.
Proof.
  intros z H. unfold is_float in H.
  assert (Hf : forall a, f_exp (a + 2 ^ 31) = f_exp a /\ f_man (a + 2 ^ 31) = f_man a).
  { intro a. unfold f_exp, f_man. split.
    - change (2 ^ 31) with (256 * 2 ^ 23). rewrite Z.div_add by discriminate.
      change 256 with (1 * 256) at 1. apply Z_mod_plus_full.
    - change (2 ^ 31) with (256 * 2 ^ 23). apply Z_mod_plus_full. }
  assert (Hs : forall a, f_sign (a + 2 ^ 31) = negb (f_sign a)).
  { intro a. unfold f_sign. change (a + 2 ^ 31) with (a + 1 * 2 ^ 31). rewrite Z.div_add by discriminate.
    rewrite Z.add_1_r, Z.odd_succ, <- Z.negb_odd. reflexivity. }
  destruct (Z_lt_ge_dec z (2 ^ 31)) as [L | G].
  - exists (z + 2 ^ 31). destruct (Hf z) as [He Hm].
    split; [unfold is_float; change (2 ^ 32) with (2 ^ 31 + 2 ^ 31) in *; lia|].
    split; [apply Hs|]. unfold f_mag, f_finite. rewrite He, Hm. split; reflexivity.
  - exists (z - 2 ^ 31). destruct (Hf (z - 2 ^ 31)) as [He Hm]. specialize (Hs (z - 2 ^ 31)).
    replace (z - 2 ^ 31 + 2 ^ 31) with z in * by lia.
    split; [unfold is_float; change (2 ^ 32) with (2 ^ 31 + 2 ^ 31) in *; lia|].
    split; [rewrite Hs, negb_involutive; reflexivity|]. unfold f_mag, f_finite. rewrite He, Hm. split; reflexivity.
Qed.

Lemma nearest_reader_correct : forall n, Z.of_nat n = 2 ^ 32 -> correct_reader (nearest_reader n).
Proof.
  intros n Hn x d e Hx Hf Hp.
  destruct (argmin_some (fun y => Z.abs (f_mag y * up e - d * down e)) (floats_upto n (f_sign x)) x) as (y & Hy & Hin & Hmin).
  { apply floats_upto_in; auto. }
  exists y. split; [exact Hy|]. apply floats_upto_in in Hin; [|exact Hn]. destruct Hin as (Fy & _ & Sy).
  split; [exact Fy|]. split; [exact Sy|]. intros z Hz Hfz.
  destruct (Bool.bool_dec (f_sign z) (f_sign x)) as [S | S].
  - apply Hmin. apply floats_upto_in; auto.
  - destruct (opposite z Hz) as (z' & Fz & Sz & Mz & Nz).
    specialize (Hmin z'). cbn beta in Hmin. rewrite Mz in Hmin. apply Hmin.
    apply floats_upto_in; [exact Hn|]. split; [exact Fz|]. split; [congruence|].
    rewrite Sz. destruct (f_sign z), (f_sign x); try reflexivity; contradiction S; reflexivity.
Qed.

Lemma reader_exists : exists read, correct_reader read.
Proof.
  exists (nearest_reader (Z.to_nat (2 ^ 32))). apply nearest_reader_correct. apply Z2Nat.id. discriminate.
Qed.
