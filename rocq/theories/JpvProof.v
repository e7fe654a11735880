(** Proofs about reading relative interaction files. *)
From Coq Require Import List ZArith Reals Bool Lia Lra.
From Verif Require Import Base RMat OscModel BlockModel BlockProof ObioModel JpvModel JpvSpec.
Import ListNotations.
Open Scope Z_scope.
Open Scope outcome_scope.

Lemma Forall2_len : forall {A B} (P : A -> B -> Prop) l l', Forall2 P l l' -> length l = length l'.
Proof. intros A B P l l' H. induction H; cbn; congruence. Qed.
Lemma div2_even : forall j, (2 * Nat.div2 (j * (j + 1)) = j * (j + 1))%nat.
Proof.
  intros j. assert (H : Nat.even (j * (j + 1)) = true).
  { rewrite Nat.even_mul, Nat.even_add. cbn. destruct (Nat.even j); reflexivity. }
  pose proof (Nat.div2_odd (j * (j + 1))) as E. rewrite <- Nat.negb_even, H in E. cbn [negb Nat.b2n] in E. lia.
Qed.
Lemma tri2 : forall i j, (2 * tri i j = j * (j + 1) + 2 * i)%nat.
Proof. intros i j. unfold tri. pose proof (div2_even j). lia. Qed.
Lemma tri_inj : forall i j k l, (i <= j)%nat -> (k <= l)%nat -> tri i j = tri k l -> i = k /\ j = l.
Proof.
  intros i j k l Hij Hkl E. pose proof (tri2 i j) as E1. pose proof (tri2 k l) as E2. rewrite E in E1.
  assert (j = l) by nia. subst. split; [nia|reflexivity].
Qed.
Lemma tri_lt : forall i j d, (i <= j)%nat -> (j < d)%nat -> (tri i j < tri 0 d)%nat.
Proof. intros i j d H1 H2. pose proof (tri2 i j). pose proof (tri2 0 d). nia. Qed.
Lemma tri_bound : forall i j d, (i <= j)%nat -> (tri i j < tri 0 d)%nat -> (j < d)%nat.
Proof. intros i j d H1 H2. pose proof (tri2 i j). pose proof (tri2 0 d). nia. Qed.

Section BLOCK.
Variable flip : bool.
Variable m : mat R.
Variable vals : list R.
Definition place (x y : nat) : nat * nat := if flip then (y, x) else (x, y).
Definition inv (n : nat) (b : bstate) : Prop :=
  b_count b = Z.of_nat n /\ (exists r c, b_row b = Z.of_nat r /\ b_col b = Z.of_nat c /\ (r <= c)%nat /\ tri r c = n)
  /\ rows (b_m b) = rows m /\ cols (b_m b) = cols m
  /\ forall x y, (x < rows m)%nat -> (y < cols m)%nat -> at_ (b_m b) x y =
       let '(i, j) := place x y in if Nat.leb i j && Nat.ltb (tri i j) n then nth (tri i j) vals 0%R else at_ m x y.
Lemma inv_start : inv 0 (BS m 0 0 0).
Proof.
  split; [reflexivity|]. split; [exists 0%nat, 0%nat; repeat split; lia|]. split; [reflexivity|]. split; [reflexivity|]. intros x y _ _. cbn [b_m].
  unfold place. destruct flip; rewrite andb_false_r; reflexivity.
Qed.
Lemma store_inv : forall n b, inv n b -> exists b', store_element flip (nth n vals 0%R) b = Ok b' /\ inv (S n) b'.
Proof.
  intros n b (Hc & (r & c & Hr & Hcol & Hrc & Ht) & Er & Ec & Hat). unfold store_element. rewrite Hr, Hcol.
  set (np := if flip then c else r). set (nn := if flip then r else c).
  replace (if flip then (Z.of_nat c, Z.of_nat r) else (Z.of_nat r, Z.of_nat c)) with (Z.of_nat np, Z.of_nat nn) by (unfold np, nn; destruct flip; reflexivity).
  cbv iota beta.
  assert (Hm : exists m', (if (Z.of_nat np <? Z.of_nat (rows (b_m b))) && (Z.of_nat nn <? Z.of_nat (cols (b_m b)))
            then mat_put (b_m b) (Z.to_nat (Z.of_nat np)) (Z.to_nat (Z.of_nat nn)) (nth n vals 0%R) else Ok (b_m b)) = Ok m'
     /\ rows m' = rows m /\ cols m' = cols m
     /\ forall x y, (x < rows m)%nat -> (y < cols m)%nat -> at_ m' x y = if Nat.eqb x np && Nat.eqb y nn then nth n vals 0%R else at_ (b_m b) x y).
  { destruct (_ && _) eqn:E.
    - apply andb_true_iff in E. rewrite !Z.ltb_lt in E. rewrite !Nat2Z.id. unfold mat_put.
      replace (Nat.ltb np (rows (b_m b))) with true by (symmetry; apply Nat.ltb_lt; lia). replace (Nat.ltb nn (cols (b_m b))) with true by (symmetry; apply Nat.ltb_lt; lia).
      cbn [andb cassert bind]. eexists. split; [reflexivity|]. cbn. split; [exact Er|]. split; [exact Ec|]. intros x y _ _. reflexivity.
    - exists (b_m b). split; [reflexivity|]. split; [exact Er|]. split; [exact Ec|]. intros x y Hx Hy.
      destruct (Nat.eqb_spec x np) as [->|]; [|reflexivity]. destruct (Nat.eqb_spec y nn) as [->|]; [|reflexivity].
      exfalso. rewrite andb_false_iff, !Z.ltb_ge in E. lia. }
  destruct Hm as (m' & Em & Rm & Cm & Am). rewrite Em. cbn [bind]. eexists. split; [reflexivity|].
  assert (Hn : forall i j, (i <= j)%nat -> (tri i j < S n)%nat <-> (tri i j < n)%nat \/ (i = r /\ j = c)).
  { intros i j Hij. split.
    - intros H. destruct (Nat.eq_dec (tri i j) n) as [E|]; [right|left; lia]. apply tri_inj; [exact Hij|exact Hrc|congruence].
    - intros [H|[-> ->]]; lia. }
  assert (Hpos : exists r' c', (r' <= c')%nat /\ tri r' c' = S n /\ (if Z.of_nat r + 1 >? Z.of_nat c then BS m' (b_count b + 1) 0 (Z.of_nat c + 1) else BS m' (b_count b + 1) (Z.of_nat r + 1) (Z.of_nat c)) = BS m' (Z.of_nat (S n)) (Z.of_nat r') (Z.of_nat c')).
  { rewrite Hc. destruct (Z.gtb_spec (Z.of_nat r + 1) (Z.of_nat c)).
    - exists 0%nat, (S c). split; [lia|]. split; [|f_equal; lia]. assert (r = c) by lia. subst r.
      pose proof (tri2 0 (S c)). pose proof (tri2 c c). nia.
    - exists (S r), c. split; [lia|]. split; [unfold tri in *; lia|f_equal; lia]. }
  destruct Hpos as (r' & c' & Hrc' & Ht' & Eb). rewrite Eb. split; [reflexivity|]. split; [exists r', c'; auto|]. split; [exact Rm|]. split; [exact Cm|].
  intros x y Hx Hy. cbn [b_m]. rewrite Am by assumption. specialize (Hat x y Hx Hy). unfold place in *. unfold np, nn.
  assert (G : forall i j, (if Nat.eqb i r && Nat.eqb j c then nth n vals 0%R else if Nat.leb i j && Nat.ltb (tri i j) n then nth (tri i j) vals 0%R else at_ m x y)
            = if Nat.leb i j && Nat.ltb (tri i j) (S n) then nth (tri i j) vals 0%R else at_ m x y).
  { intros i j. destruct (Nat.leb_spec i j) as [Hij|Hij]; cbn [andb].
    - specialize (Hn i j Hij). destruct (Nat.eqb_spec i r) as [->|Hi].
      + destruct (Nat.eqb_spec j c) as [->|Hj]; cbn [andb].
        * rewrite Ht. replace (Nat.ltb n (S n)) with true by (symmetry; apply Nat.ltb_lt; lia). reflexivity.
        * destruct (Nat.ltb_spec (tri r j) n); destruct (Nat.ltb_spec (tri r j) (S n)); try reflexivity; exfalso; lia.
      + cbn [andb]. destruct (Nat.ltb_spec (tri i j) n); destruct (Nat.ltb_spec (tri i j) (S n)); try reflexivity; exfalso; lia.
    - destruct (Nat.eqb_spec i r) as [->|]; [|reflexivity]. destruct (Nat.eqb_spec j c) as [->|]; [exfalso; lia|reflexivity]. }
  destruct flip; rewrite Hat.
  - rewrite <- (G y x). rewrite andb_comm. reflexivity.
  - rewrite <- (G x y). reflexivity.
Qed.
(** the words of a line, not all of the block yet or exactly all *)
Lemma take_words_inv : forall l vs n b, Forall2 (fun w v => word_value w = Some v) l vs -> (forall i v, nth_error vs i = Some v -> nth (n + i) vals 0%R = v) ->
  inv n b -> forall expected, (n + length vs <= expected)%nat -> (l <> [] -> (n < expected)%nat) ->
  exists b' done, take_words flip (Z.of_nat expected) l b = Ok (b', done) /\ inv (n + length vs) b' /\ done = (Nat.eqb (n + length vs) expected && negb (is_nil l)).
Proof.
  induction l as [|w l IH]; intros vs n b H Hv Hi expected Hle Hne; inversion H; subst; cbn [take_words].
  { exists b, false. cbn. rewrite Nat.add_0_r, andb_false_r. auto. }
  rename y into v. rename l' into vs'. rewrite H2. pose proof (Hv 0%nat v eq_refl) as E0. rewrite Nat.add_0_r in E0. rewrite <- E0.
  destruct (store_inv n b Hi) as (b1 & E1 & Hi1). rewrite E1. cbn [bind]. pose proof Hi1 as (Hc1 & _). rewrite Hc1.
  destruct (Z.eqb_spec (Z.of_nat (S n)) (Z.of_nat expected)) as [Ee|Ee].
  - assert (vs' = []) by (destruct vs'; [reflexivity|cbn in Hle; lia]). subst vs'. exists b1, true. split; [reflexivity|]. cbn [length].
    replace (n + 1)%nat with (S n) by lia. split; [exact Hi1|]. replace (Nat.eqb (S n) expected) with true by (symmetry; apply Nat.eqb_eq; lia). reflexivity.
  - destruct (IH vs' (S n) b1 H4) with (expected := expected) as (b' & done & E & Hi' & Hd).
    + intros i u Hu. rewrite <- (Hv (S i) u Hu). f_equal. lia.
    + exact Hi1.
    + cbn in Hle. lia.
    + intros Hl. cbn in Hle. destruct l; [congruence|]. lia.
    + exists b', done. cbn [length]. replace (n + S (length vs'))%nat with (S n + length vs')%nat by lia. split; [exact E|]. split; [exact Hi'|]. rewrite Hd.
      cbn [is_nil negb]. rewrite andb_true_r. destruct l; cbn [is_nil negb]; [|rewrite andb_true_r; reflexivity].
      inversion H4; subst. cbn [length]. rewrite andb_false_r. symmetry. apply Nat.eqb_neq. lia.
Qed.
Lemma read_elements_inv : forall ls tail nl n b vs expected, Forall2 (fun w v => word_value w = Some v) (concat ls) vs ->
  (forall i v, nth_error vs i = Some v -> nth (n + i) vals 0%R = v) -> inv n b -> (n + length vs = expected)%nat -> (n < expected)%nat -> last ls [] <> [] ->
  exists m' l', read_elements flip (Z.of_nat expected) (ls ++ tail) nl b = Ok (m', l', St tail nl (is_nil tail && negb nl) false) /\ exists b', b_m b' = m' /\ inv expected b'.
Proof.
  induction ls as [|l ls IH]; intros tail nl n b vs expected H Hv Hi He Hn Hl; [cbn in Hl; congruence|].
  cbn [concat] in H. apply Forall2_app_inv_l in H. destruct H as (v1 & v2 & F1 & F2 & ->). rewrite app_length in He.
  destruct (take_words_inv l v1 n b F1) with (expected := expected) as (b1 & done & E1 & Hi1 & Hd).
  { intros i v Hi'. apply Hv. rewrite nth_error_app1; [exact Hi'|]. apply nth_error_Some. congruence. }
  { exact Hi. }
  { lia. }
  { intros _. exact Hn. }
  cbn [app read_elements]. rewrite E1. cbn [bind].
  destruct ls as [|l2 ls].
  - cbn in F2. inversion F2; subst v2. cbn [length] in He. cbn [last] in Hl. replace (Nat.eqb (n + length v1) expected) with true in Hd by (symmetry; apply Nat.eqb_eq; lia).
    destruct l; [congruence|]. cbn in Hd. subst done. cbn [app]. exists (b_m b1), (t :: l). split; [reflexivity|]. exists b1. split; [reflexivity|].
    replace expected with (n + length v1)%nat by lia. exact Hi1.
  - assert (Hv2 : (length v2 > 0)%nat).
    { pose proof (Forall2_len _ _ _ F2) as Hlen. rewrite <- Hlen. change (last (l :: l2 :: ls) []) with (last (l2 :: ls) []) in Hl. destruct (exists_last (l := l2 :: ls)) as (l0 & x & E); [discriminate|].
      rewrite E in *. rewrite last_last in Hl. rewrite concat_app, app_length. cbn. rewrite app_nil_r. destruct x; [congruence|cbn; lia]. }
    replace (Nat.eqb (n + length v1) expected) with false in Hd by (symmetry; apply Nat.eqb_neq; lia). cbn in Hd. subst done.
    apply (IH tail nl (n + length v1)%nat b1 v2 expected F2).
    + intros i v Hi'. rewrite <- Nat.add_assoc. apply Hv. rewrite nth_error_app2 by lia. rewrite Nat.add_comm, Nat.add_sub. exact Hi'.
    + exact Hi1.
    + lia.
    + lia.
    + exact Hl.
Qed.
End BLOCK.
(** * Blocks and files *)
Lemma i32_scan : forall z l, in_i32 z = true -> scan_i (T:=R) (TInt z :: l) = Ok (z, l).
Proof. intros z l H. unfold scan_i. rewrite H. reflexivity. Qed.
Lemma value_scan : forall w v l, word_value w = Some v -> scan_d (w :: l) = Ok (v, l).
Proof. intros w v l H. unfold scan_d. rewrite H. reflexivity. Qed.
Lemma has_labels_ok : forall L S J T g x, has_labels L S J T g x = true <-> labels_of x = (L, S, J, T, g).
Proof.
  intros. unfold has_labels, labels_of. rewrite !andb_true_iff, !Z.eqb_eq. split; [intros [[[[-> ->] ->] ->] ->]; reflexivity|].
  intros E. injection E as -> -> -> -> ->. auto.
Qed.
Lemma find_sub_ok : forall sp i x L S J T g, rspace_ok sp -> nth_error sp i = Some x -> labels_of x = (L, S, J, T, g) -> find_sub sp L S J T g = Some i.
Proof.
  intros sp i x L S_ J T g Hs Hx Hl. unfold find_sub. destruct (find_ix _ sp) as [i'|] eqn:E.
  - apply find_ix_some in E. destruct E as (x' & Hx' & Hh). apply has_labels_ok in Hh. f_equal.
    apply (NoDup_nth_error (map labels_of sp)); [exact Hs| |].
    + rewrite map_length. apply nth_error_Some. congruence.
    + rewrite !nth_error_map, Hx, Hx'. cbn. congruence.
  - exfalso. pose proof (find_ix_none _ _ _ E x (nth_error_In _ _ Hx)) as H. apply has_labels_ok in Hl. congruence.
Qed.
Lemma look_up_ok : forall s ix b k, NoDup s -> nth_error s ix = Some (b, k) -> look_up_sector s b k = Some ix.
Proof.
  intros s ix b k Hn H. destruct (look_up_sector s b k) as [i|] eqn:E.
  - apply look_up_some in E. f_equal. apply (NoDup_nth_error s); [exact Hn| |congruence]. apply nth_error_Some. congruence.
  - apply look_up_none in E. exfalso. apply E. eapply nth_error_In. exact H.
Qed.
Definition head_of (b : jblock) : header := Hd (jb_J b) (jb_S b) (jb_first b) (jb_second b) (Z.of_nat (jb_dim b)).
Lemma head_read : forall b lines, block_text b lines -> exists h body, lines = h :: body /\ read_head h = Ok (Some (head_of b))
  /\ Forall2 (fun w v => word_value w = Some v) (concat body) (jb_vals b) /\ length (jb_vals b) = tri 0 (jb_dim b) /\ (body = [] \/ last body [] <> []).
Proof.
  intros b lines (nmax & id & mn & hw & body & vmn & vhw & -> & Hi & HJ & Hmn & Hhw & Hf & Hl & Hb).
  eexists. exists body. split; [reflexivity|]. split; [|auto]. cbn [forallb] in Hi. rewrite !andb_true_iff in Hi. destruct Hi as (H1 & H2 & H3 & H4 & H5 & H6 & H7 & _).
  unfold read_head. rewrite i32_scan by exact H1. cbn [bind]. replace (jb_J b =? 99999) with false by (symmetry; apply Z.eqb_neq; exact HJ).
  rewrite i32_scan by exact H2. cbn [bind]. rewrite i32_scan by exact H3. cbn [bind]. rewrite i32_scan by exact H4. cbn [bind].
  rewrite i32_scan by exact H5. cbn [bind]. rewrite i32_scan by exact H6. cbn [bind]. rewrite (value_scan mn vmn) by exact Hmn. cbn [bind].
  rewrite (value_scan hw vhw) by exact Hhw. cbn [bind]. rewrite i32_scan by exact H7. reflexivity.
Qed.
Lemma sector_found : forall sp Jmax sectors b s, rspace_ok sp -> NoDup sectors -> belongs sp Jmax sectors b s ->
  block_sector sp Jmax sectors (head_of b) = Ok (s, jb_second b >? jb_first b).
Proof.
  intros sp Jmax sectors b s Hs Hn (HS & HL & HLp & Hpar & HJ & i & k & x & y & Hnth & Hik & Hx & Hy & Sx & Sy).
  unfold block_sector, head_of. cbn [h_J h_S h_L h_Lp h_dim].
  set (lo := Z.min (jb_first b) (jb_second b)) in *. set (hi := Z.max (jb_first b) (jb_second b)) in *.
  replace (if jb_second b >? jb_first b then (jb_first b, jb_second b) else (jb_second b, jb_first b)) with (lo, hi)
    by (unfold lo, hi; destruct (Z.gtb_spec (jb_second b) (jb_first b)); f_equal; lia).
  cbv iota beta. replace (jb_J b <=? Jmax) with true by (symmetry; apply Z.leb_le; exact HJ). cbn [cassert bind].
  assert (Hlo : 0 <= lo) by (unfold lo; lia). assert (Hhi : 0 <= hi) by (unfold hi; lia).
  assert (Hsum : (lo + hi) mod 2 = 0) by (replace (lo + hi) with (jb_first b + jb_second b) by (unfold lo, hi; lia); exact Hpar).
  clearbody lo hi. rewrite !Z.rem_mod_nonneg by lia.
  assert (HT : (lo + jb_S b + 1) mod 2 = (hi + jb_S b + 1) mod 2).
  { apply Z.mod_divide in Hsum; [|lia]. destruct Hsum as (q & Hq). replace (hi + jb_S b + 1) with ((lo + jb_S b + 1) + (q - lo) * 2) by lia.
    symmetry. apply Z_mod_plus_full. }
  rewrite HT, Z.eqb_refl. cbn [cassert bind]. rewrite <- HT at 1.
  destruct Sx as (X1 & X2 & X3 & X4 & X5). destruct Sy as (Y1 & Y2 & Y3 & Y4 & Y5).
  rewrite (find_sub_ok sp i x) by (try assumption; unfold labels_of; congruence). rewrite (find_sub_ok sp k y) by (try assumption; unfold labels_of; congruence).
  replace (Nat.leb i k) with true by (symmetry; apply Nat.leb_le; exact Hik). cbn [cassert bind]. rewrite (look_up_ok _ s) by assumption. reflexivity.
Qed.
Lemma Forall2_nth : forall {A B} (P : A -> B -> Prop) l l' i x, Forall2 P l l' -> nth_error l i = Some x -> exists y, nth_error l' i = Some y /\ P x y.
Proof. intros A B P l l' i x H. revert i. induction H; intros i E; destruct i; cbn in *; [discriminate|discriminate|injection E as ->; eauto|eauto]. Qed.
Lemma store_ok : forall {A} (l : list A) i x, (i < length l)%nat -> exists l', store l i x = Ok l' /\ length l' = length l /\ forall k, nth_error l' k = if Nat.eqb k i then Some x else nth_error l k.
Proof.
  induction l as [|a l IH]; intros i x H; cbn in H; [lia|]. destruct i; cbn.
  - eexists. split; [reflexivity|]. split; [reflexivity|]. intros [|k]; reflexivity.
  - destruct (IH i x) as (l' & E & E1 & E2); [lia|]. rewrite E. cbn. eexists. split; [reflexivity|]. cbn. split; [lia|]. intros [|k]; cbn; [reflexivity|apply E2].
Qed.
Lemma triangle_quot : forall d, Z.quot (Z.of_nat d * (Z.of_nat d + 1)) 2 = Z.of_nat (tri 0 d).
Proof.
  intros d. rewrite Z.quot_div_nonneg by nia. pose proof (tri2 0 d) as H. symmetry. apply Z.div_unique with 0; [lia|]. nia.
Qed.
Lemma Forall2_intro : forall {A B} (P : A -> B -> Prop) l l', length l = length l' -> (forall i x y, nth_error l i = Some x -> nth_error l' i = Some y -> P x y) -> Forall2 P l l'.
Proof.
  induction l as [|a l IH]; intros [|b l'] H Hp; cbn in H; try discriminate; constructor.
  - apply (Hp 0%nat); reflexivity.
  - apply IH; [congruence|]. intros i. apply (Hp (S i)).
Qed.
Lemma nth_nil : forall {A} n, nth_error (@nil A) n = None.
Proof. intros A [|n]; reflexivity. Qed.
(** one block *)
Lemma block_read : forall sp Jmax sectors b s h lines tail nl ms, rspace_ok sp -> NoDup sectors -> belongs sp Jmax sectors b s -> rblocks_ok sp sectors ms ->
  block_text b (h :: lines) -> tail <> [] ->
  exists ms' l', read_block sp Jmax sectors (head_of b) h (St (lines ++ tail) nl false false) ms = Ok (ms', l', St tail nl false false) /\ rblocks_ok sp sectors ms'
  /\ forall q x y, in_sector sp sectors q x y ->
       entry_of ms' q x y = if Nat.eqb s q then match gives b x y with Some w => w | None => entry_of ms q x y end else entry_of ms q x y.
Proof.
  intros sp Jmax sectors b s h lines tail nl ms Hs Hn Hb Hm Ht Htail. unfold read_block. rewrite (sector_found sp Jmax sectors b s Hs Hn Hb). cbn [bind].
  destruct Hb as (_ & _ & _ & _ & _ & i & k & u & v & Hnth & _ & _). destruct (Forall2_nth _ _ _ _ _ Hm Hnth) as (m & Em & Rm & Cm). rewrite Em. cbn [get bind].
  cbn [head_of h_dim]. rewrite triangle_quot.
  apply head_read in Ht. destruct Ht as (h' & body & E & _ & Hf & Hlen & Hlast). injection E as <- <-.
  destruct (Z.eqb_spec (Z.of_nat (tri 0 (jb_dim b))) 0) as [E0|E0].
  - assert (Hv : jb_vals b = []) by (destruct (jb_vals b); [reflexivity|cbn in Hlen; lia]). rewrite Hv in Hf. inversion Hf as [Hc|].
    assert (lines = []). { destruct Hlast as [->|Hl]; [reflexivity|]. exfalso. destruct (exists_last (l := lines)) as (l0 & w & E); [intros ->; apply Hl; reflexivity|].
      rewrite E in Hc, Hl. rewrite last_last in Hl. rewrite concat_app in Hc. cbn in Hc. rewrite app_nil_r in Hc. symmetry in Hc. apply app_eq_nil in Hc. tauto. }
    subst lines. exists ms, h. split; [reflexivity|]. split; [exact Hm|]. intros q x y _. unfold gives. rewrite Hv.
    destruct (Nat.eqb s q); [|reflexivity]. destruct (jb_second b >? jb_first b); destruct (_ && _); try reflexivity; rewrite nth_nil; reflexivity.
  - cbn [st_eof st_rest st_nl].
    destruct (read_elements_inv (jb_second b >? jb_first b) m (jb_vals b) lines tail nl 0 (BS m 0 0 0) (jb_vals b) (tri 0 (jb_dim b)) Hf) as (m' & l' & Er & b' & <- & Hi).
    { intros j w H. apply nth_error_nth. exact H. }
    { apply inv_start. }
    { exact Hlen. }
    { lia. }
    { destruct Hlast as [->|Hl]; [|exact Hl]. inversion Hf. rewrite <- H in Hlen. cbn in Hlen. lia. }
    unfold line in *. rewrite Er. cbn [bind]. destruct Hi as (_ & _ & Ri & Ci & Hat).
    assert (Hsl : (s < length ms)%nat) by (apply nth_error_Some; congruence).
    destruct (store_ok ms s (b_m b') Hsl) as (ms' & Es & Elen & Enth). rewrite Es. cbn [bind]. exists ms', l'.
    split. { destruct tail; [congruence|reflexivity]. }
    split.
    + apply Forall2_intro; [rewrite Elen; apply (Forall2_len _ _ _ Hm)|]. intros q p w Hp Hw. rewrite Enth in Hw. destruct (Nat.eqb_spec q s) as [->|].
      * injection Hw as <-. rewrite Ri, Ci. rewrite Hnth in Hp. injection Hp as <-. auto.
      * destruct (Forall2_nth _ _ _ _ _ Hm Hp) as (w' & Ew' & Hw'). rewrite Ew' in Hw. injection Hw as <-. exact Hw'.
    + intros q x y (bb & kk & Hin & Hx & Hy). unfold entry_of. rewrite Enth. rewrite (Nat.eqb_sym s q). destruct (Nat.eqb_spec q s) as [->|]; [|reflexivity].
      rewrite Hnth in Hin. injection Hin as <- <-. cbn [fst snd] in Rm, Cm. rewrite Hat by congruence. rewrite Em. unfold place, gives.
      assert (G : forall i' j', (if Nat.leb i' j' && Nat.ltb (tri i' j') (tri 0 (jb_dim b)) then nth (tri i' j') (jb_vals b) 0%R else at_ m x y)
         = match (if Nat.leb i' j' && Nat.ltb j' (jb_dim b) then nth_error (jb_vals b) (tri i' j') else None) with Some w => w | None => at_ m x y end).
      { intros i' j'. destruct (Nat.leb_spec i' j') as [Hij|]; cbn [andb]; [|reflexivity].
        destruct (Nat.ltb_spec j' (jb_dim b)) as [Hd|Hd].
        - pose proof (tri_lt i' j' _ Hij Hd) as Hl. replace (Nat.ltb (tri i' j') (tri 0 (jb_dim b))) with true by (symmetry; apply Nat.ltb_lt; exact Hl).
          rewrite <- Hlen in Hl. destruct (nth_error (jb_vals b) (tri i' j')) eqn:En; [apply nth_error_nth; exact En|]. apply nth_error_None in En. lia.
        - replace (Nat.ltb (tri i' j') (tri 0 (jb_dim b))) with false; [reflexivity|]. symmetry. apply Nat.ltb_ge.
          destruct (Nat.lt_ge_cases (tri i' j') (tri 0 (jb_dim b))) as [Hc|Hc]; [|exact Hc]. pose proof (tri_bound i' j' _ Hij Hc). lia. }
      destruct (jb_second b >? jb_first b); apply G.
Qed.
Lemma is_nil_app : forall {A} (a b : list A) x, is_nil (a ++ x :: b) = false.
Proof. intros A [|y a] b x; reflexivity. Qed.
(** a file: blocks, then the terminating line *)
Lemma file_read : forall bs texts sp Jmax sectors ms stop tail nl, rspace_ok sp -> NoDup sectors -> rblocks_ok sp sectors ms ->
  Forall2 (fun p t => block_text (fst p) t /\ belongs sp Jmax sectors (fst p) (snd p)) bs texts ->
  forall depth old, (length bs < depth)%nat ->
  exists ms', read_blocks depth sp Jmax sectors old (St (concat texts ++ (TInt 99999 :: stop) :: tail) nl false false) ms = Some (Ok ms') /\ rblocks_ok sp sectors ms'
  /\ forall q x y, in_sector sp sectors q x y -> entry_of ms' q x y = latest bs q x y (entry_of ms q x y).
Proof.
  intros bs texts sp Jmax sectors ms stop tail nl Hs Hn Hm H. revert ms Hm. induction H as [|[b s] t bs texts [Ht Hb] H IH]; intros ms Hm depth old Hd; (destruct depth as [|depth]; [cbn in Hd; lia|]).
  - exists ms. split; [reflexivity|]. split; [exact Hm|]. reflexivity.
  - cbn [fst snd] in Ht, Hb. pose proof Ht as Ht'. apply head_read in Ht'. destruct Ht' as (h & body & -> & Eh & _).
    destruct (block_read sp Jmax sectors b s h body (concat texts ++ (TInt 99999 :: stop) :: tail) nl ms Hs Hn Hb Hm Ht) as (ms1 & l1 & E1 & Hm1 & Hent).
    { destruct (concat texts); discriminate. }
    destruct (IH ms1 Hm1 depth l1) as (ms' & E & Hm' & He); [cbn in Hd; lia|].
    exists ms'. split.
    + cbn [read_blocks concat app]. unfold raw_line. cbn [st_fail st_eof st_rest st_nl orb]. rewrite Eh.
      rewrite is_nil_app, <- app_assoc. cbn [andb]. unfold line in *. rewrite E1. exact E.
    + split; [exact Hm'|]. intros q x y Hx. rewrite He by assumption. rewrite Hent by assumption. reflexivity.
Qed.
Lemma place_exists : forall n, exists i j, (i <= j)%nat /\ tri i j = n.
Proof.
  induction n as [|n (i & j & H & E)]; [exists 0%nat, 0%nat; split; [lia|reflexivity]|]. destruct (Nat.eq_dec i j) as [->|].
  - exists 0%nat, (S j). split; [lia|]. pose proof (tri2 j j). pose proof (tri2 0 (S j)). nia.
  - exists (S i), j. split; [lia|]. unfold tri in *. lia.
Qed.
Lemma place_unique : forall d n, (n < tri 0 d)%nat -> exists i j, triangle_place d n i j /\ forall i' j', triangle_place d n i' j' -> i' = i /\ j' = j.
Proof.
  intros d n H. destruct (place_exists n) as (i & j & Hij & E). exists i, j. split.
  - split; [exact Hij|]. split; [apply (tri_bound i j d Hij); lia|exact E].
  - intros i' j' (H' & _ & E'). apply tri_inj; [exact H'|exact Hij|congruence].
Qed.
Lemma gives_from : forall V b x y w, symmetric_V V -> written_from (V (jb_J b) (jb_S b)) b -> gives b x y = Some w ->
  w = V (jb_J b) (jb_S b) (Z.min (jb_first b) (jb_second b)) x (Z.max (jb_first b) (jb_second b)) y.
Proof.
  intros V b x y w Hsym Hw Hg. unfold gives in Hg. destruct (Z.gtb_spec (jb_second b) (jb_first b)) as [H|H].
  - rewrite Z.min_l, Z.max_r by lia. destruct (Nat.leb_spec y x); [|discriminate]. destruct (Nat.ltb_spec x (jb_dim b)); [|discriminate]. cbn in Hg.
    rewrite Hw in Hg by assumption. congruence.
  - rewrite Z.min_r, Z.max_l by lia. destruct (Nat.leb_spec x y); [|discriminate]. destruct (Nat.ltb_spec y (jb_dim b)); [|discriminate]. cbn in Hg.
    rewrite Hw in Hg by assumption. rewrite Hsym. congruence.
Qed.
Lemma latest_from : forall V sp Jmax sectors bs s x y v b k xb xk, symmetric_V V -> nth_error sectors s = Some (b, k) -> nth_error sp b = Some xb -> nth_error sp k = Some xk ->
  Forall (fun p => belongs sp Jmax sectors (fst p) (snd p) /\ written_from (V (jb_J (fst p)) (jb_S (fst p))) (fst p)) bs ->
  (exists p, In p bs /\ snd p = s /\ gives (fst p) x y <> None) \/ v = V (r_J xb) (r_S xb) (r_L xb) x (r_L xk) y ->
  latest bs s x y v = V (r_J xb) (r_S xb) (r_L xb) x (r_L xk) y.
Proof.
  intros V sp Jmax sectors bs s x y v b k xb xk Hsym Hs Hb Hk H. revert v. induction H as [|[p q] bs [Hp Hw] H IH]; intros v Hor.
  - destruct Hor as [(p & [] & _)|Hor]. exact Hor.
  - cbn [latest fold_left]. fold (latest bs s x y). cbn [fst snd] in *. apply IH.
    destruct (Nat.eqb_spec q s) as [->|Hne].
    + destruct (gives p x y) as [w|] eqn:Eg.
      * right. rewrite (gives_from V p x y w Hsym Hw Eg). destruct Hp as (_ & _ & _ & _ & _ & i & k' & x1 & y1 & E1 & _ & E2 & E3 & S1 & S2).
        rewrite Hs in E1. injection E1 as <- <-. rewrite Hb in E2. rewrite Hk in E3. injection E2 as <-. injection E3 as <-.
        destruct S1 as (-> & -> & -> & _). destruct S2 as (-> & _). reflexivity.
      * destruct Hor as [(r & [<-|Hin] & Hr & Hg)|Hor]; [cbn in *; congruence|left; exists r; auto|right; exact Hor].
    + destruct Hor as [(r & [<-|Hin] & Hr & Hg)|Hor]; [cbn in *; congruence|left; exists r; auto|right; exact Hor].
Qed.
(** * Termination *)
Lemma elements_stream : forall flip e rest nl b m l s, read_elements flip e rest nl b = Ok (m, l, s) -> exists r, s = St r nl (is_nil r && negb nl) false /\ (length r < length rest)%nat.
Proof.
  intros flip e rest nl. induction rest as [|l0 rest IH]; intros b m l s H; cbn in H; [discriminate|].
  destruct (take_words flip e l0 b) as [[b' done]| | |]; cbn in H; try discriminate. destruct done.
  - injection H as <- <- <-. exists rest. split; [reflexivity|cbn; unfold line in *; lia].
  - apply IH in H. destruct H as (r & -> & Hr). exists r. split; [reflexivity|cbn; unfold line in *; lia].
Qed.
Lemma blocks_end : forall sp Jmax sectors depth rest ms old, (length rest < depth)%nat -> read_blocks depth sp Jmax sectors old (St rest true false false) ms <> None.
Proof.
  intros sp Jmax sectors. induction depth as [|depth IH]; intros rest ms old Hd; [lia|]. cbn [read_blocks]. unfold raw_line. cbn [st_fail st_eof orb st_rest st_nl].
  destruct rest as [|l rest]; [cbn; discriminate|]. destruct (read_head l) as [[h|]| | |]; try discriminate.
  rewrite andb_false_r. destruct (read_block sp Jmax sectors h l (St rest true false false) ms) as [[[ms' l'] s']| | |] eqn:E; try discriminate.
  assert (Hs : exists r, s' = St r true false false /\ (length r <= length rest)%nat).
  { unfold read_block in E. destruct (block_sector sp Jmax sectors h) as [[ix flip]| | |]; cbn [bind] in E; try discriminate.
    destruct (nth_error ms ix); cbn [get bind] in E; try discriminate. destruct (Z.eqb _ 0); [injection E as <- <- <-; eauto|]. cbn [st_eof st_rest st_nl] in E.
    destruct (read_elements _ _ _ _ _) as [[[m' l2] s2]| | |] eqn:Er; cbn [bind] in E; try discriminate. apply elements_stream in Er. destruct Er as (r & -> & Hr).
    destruct (store ms ix m'); cbn [bind] in E; try discriminate. injection E as <- <- <-. exists r. rewrite andb_false_r. split; [reflexivity|unfold line in *; lia]. }
  destruct Hs as (r & -> & Hr). apply IH. cbn in Hd. unfold line in *. lia.
Qed.
Lemma jpv_file : forall bs texts sp Jmax sectors ms stop tail nl depth, rspace_ok sp -> NoDup sectors -> rblocks_ok sp sectors ms ->
  Forall2 (fun p t => block_text (fst p) t /\ belongs sp Jmax sectors (fst p) (snd p)) bs texts -> (length bs < depth)%nat ->
  exists ms', read_jpv depth sp Jmax sectors (concat texts ++ (TInt 99999 :: stop) :: tail) nl ms = Some (Ok ms') /\ rblocks_ok sp sectors ms'
  /\ forall s x y, in_sector sp sectors s x y -> entry_of ms' s x y = latest bs s x y (entry_of ms s x y).
Proof.
  intros bs texts sp Jmax sectors ms stop tail nl depth Hs Hn Hm H Hd. unfold read_jpv, open_text.
  exact (file_read bs texts sp Jmax sectors ms stop tail nl Hs Hn Hm H depth [] Hd).
Qed.
Lemma jpv_interaction : forall V bs texts sp Jmax sectors ms stop tail nl depth, rspace_ok sp -> NoDup sectors -> rblocks_ok sp sectors ms -> symmetric_V V ->
  Forall2 (fun p t => block_text (fst p) t /\ belongs sp Jmax sectors (fst p) (snd p)) bs texts -> (length bs < depth)%nat ->
  Forall (fun p => written_from (V (jb_J (fst p)) (jb_S (fst p))) (fst p)) bs ->
  exists ms', read_jpv depth sp Jmax sectors (concat texts ++ (TInt 99999 :: stop) :: tail) nl ms = Some (Ok ms')
  /\ forall s x y b k xb xk, in_sector sp sectors s x y -> nth_error sectors s = Some (b, k) -> nth_error sp b = Some xb -> nth_error sp k = Some xk ->
     (exists p, In p bs /\ snd p = s /\ gives (fst p) x y <> None) -> entry_of ms' s x y = V (r_J xb) (r_S xb) (r_L xb) x (r_L xk) y.
Proof.
  intros V bs texts sp Jmax sectors ms stop tail nl depth Hs Hn Hm HV H Hd Hw. destruct (jpv_file bs texts sp Jmax sectors ms stop tail nl depth Hs Hn Hm H Hd) as (ms' & E & _ & He).
  exists ms'. split; [exact E|]. intros s x y b k xb xk Hin Hsec Hb Hk Hex. rewrite He by exact Hin.
  apply (latest_from V sp Jmax sectors bs s x y _ b k xb xk HV Hsec Hb Hk); [|left; exact Hex].
  clear - H Hw. induction H as [|p t bs texts [_ Hp] H IH]; [constructor|]. inversion Hw; subst. constructor; auto.
Qed.
Lemma both_cover : forall b1 b2 d x y, jb_first b2 < jb_second b2 -> jb_second b1 < jb_first b1 -> jb_dim b1 = d -> jb_dim b2 = d ->
  length (jb_vals b1) = tri 0 d -> length (jb_vals b2) = tri 0 d -> (x < d)%nat -> (y < d)%nat -> gives b1 x y <> None \/ gives b2 x y <> None.
Proof.
  intros b1 b2 d x y H2 H1 D1 D2 L1 L2 Hx Hy. unfold gives. rewrite D1, D2. destruct (Z.gtb_spec (jb_second b1) (jb_first b1)); [lia|]. destruct (Z.gtb_spec (jb_second b2) (jb_first b2)); [|lia].
  destruct (Nat.leb_spec x y) as [Hxy|Hxy].
  - left. replace (Nat.ltb y d) with true by (symmetry; apply Nat.ltb_lt; exact Hy). cbn. apply nth_error_Some. rewrite L1. apply tri_lt; assumption.
  - right. replace (Nat.leb y x) with true by (symmetry; apply Nat.leb_le; lia). replace (Nat.ltb x d) with true by (symmetry; apply Nat.ltb_lt; exact Hx).
    cbn. apply nth_error_Some. rewrite L2. apply tri_lt; lia.
Qed.
Lemma jpv_ends : forall sp Jmax sectors lines ms, read_jpv (S (length lines)) sp Jmax sectors lines true ms <> None.
Proof. intros. unfold read_jpv, open_text. apply blocks_end. unfold line. lia. Qed.
Lemma jpv_ends_terminated : forall bs texts sp Jmax sectors ms stop tail nl, rspace_ok sp -> NoDup sectors -> rblocks_ok sp sectors ms ->
  Forall2 (fun p t => block_text (fst p) t /\ belongs sp Jmax sectors (fst p) (snd p)) bs texts ->
  read_jpv (S (length bs)) sp Jmax sectors (concat texts ++ (TInt 99999 :: stop) :: tail) nl ms <> None.
Proof. intros. destruct (jpv_file bs texts sp Jmax sectors ms stop tail nl (S (length bs))) as (ms' & E & _); auto. rewrite E. discriminate. Qed.
Definition ex_space : rspace := [RSub 0 1 1 0 0 2; RSub 2 1 1 0 0 2].
Definition ex_sectors : lsectors := [(0, 0); (0, 1); (1, 1)]%nat.
Definition ex_zero : blocks R := [mzero 0%R 2 2; mzero 0%R 2 2; mzero 0%R 2 2].
Lemma ex_ok : rspace_ok ex_space /\ NoDup ex_sectors /\ rblocks_ok ex_space ex_sectors ex_zero.
Proof.
  split. { unfold rspace_ok. cbn. constructor; [intros [E|[]]; discriminate|constructor; [intros []|constructor]]. }
  split. { unfold ex_sectors. constructor; [intros [E|[E|[]]]; discriminate|constructor; [intros [E|[]]; discriminate|constructor; [intros []|constructor]]]. }
  repeat constructor.
Qed.
Definition empty_head : line := [TInt 1; TInt 1; TInt 0; TInt 0; TInt 0; TInt 0; TNum 1%R; TNum 1%R; TInt 0].
Lemma endless_step : forall depth s, st_eof s = true -> read_blocks depth ex_space 1 ex_sectors empty_head s ex_zero = None.
Proof.
  induction depth as [|depth IH]; intros s H; [reflexivity|]. cbn [read_blocks]. unfold raw_line. rewrite H, orb_true_r.
  change (read_head empty_head) with (Ok (Some (Hd 1 1 0 0 0))).
  change (read_block ex_space 1 ex_sectors (Hd 1 1 0 0 0) empty_head (St (st_rest s) (st_nl s) true true) ex_zero) with (Ok (ex_zero, empty_head, St (st_rest s) (st_nl s) true true)).
  apply IH. reflexivity.
Qed.
Lemma jpv_endless : exists sp Jmax sectors lines ms, rspace_ok sp /\ NoDup sectors /\ rblocks_ok sp sectors ms
  /\ forall depth, read_jpv depth sp Jmax sectors lines false ms = None.
Proof.
  exists ex_space, 1, ex_sectors, [empty_head], ex_zero. destruct ex_ok as (H1 & H2 & H3). do 3 (split; [assumption|]). intros [|depth]; [reflexivity|].
  unfold read_jpv, open_text. cbn [read_blocks]. apply (endless_step depth (St [] false true false)). reflexivity.
Qed.
Lemma jpv_silent : exists sp Jmax sectors ms pre word post more, rspace_ok sp /\ NoDup sectors /\ rblocks_ok sp sectors ms
  /\ word_value word = None
  /\ exists ms', read_jpv 3 sp Jmax sectors (pre ++ [[TNum 10%R; word; TNum 20%R]] ++ more ++ post) true ms = Some (Ok ms')
  /\ entry_of ms' 1 0 1 = 30%R /\ more = [[TNum 30%R; TNum 40%R]].
Proof.
  exists ex_space, 1, ex_sectors, ex_zero, [[TInt 1; TInt 1; TInt 2; TInt 0; TInt 4; TInt 2; TNum 1%R; TInt 20; TInt 0]], (TChr Ascii.zero), [[TInt 99999]].
  eexists. destruct ex_ok as (H1 & H2 & H3). do 3 (split; [assumption|]). split; [reflexivity|]. eexists. split; [|split; [|reflexivity]]; reflexivity.
Qed.
