(** Element loops and sector-level reads, skips and writes. *)
From Coq Require Import String List ZArith Lia Bool.
From Verif Require Import Base BaseLemmas H2Model H2Spec.
Import ListNotations.
Open Scope nat_scope.

(** ** counting elements *)
Definition elems (s : sector) : list (nat * nat) :=
  filter (fun p => negb (skipped s (fst p) (snd p))) (pairs (ss_size (s_bra s)) (ss_size (s_ket s))).

Lemma in_elems : forall s b k, In (b, k) (elems s) <-> held s b k.
Proof.
  intros. unfold elems, held. rewrite filter_In, in_pairs. simpl. unfold ss_size, skipped, is_diag.
  destruct (Nat.eqb_spec (s_bi s) (s_ki s)); simpl.
  - rewrite negb_involutive, Nat.leb_le. split; [tauto|]. intros (H1 & H2 & H3). auto.
  - split; [intros [[H1 H2] _]; repeat split; auto; congruence|]. intros (H1 & H2 & _). auto.
Qed.

Lemma filter_leb_row : forall m n a, a <= n ->
  length (filter (fun k => Nat.leb a k) (seq (n - m) m)) = Nat.min m (n - a) \/ n < m.
Proof.
  induction m as [|m IH]; intros n a Ha; [left; reflexivity|].
  destruct (Nat.lt_ge_cases n (S m)) as [Hlt|Hge]; [right; assumption|]. left.
  change (seq (n - S m) (S m)) with ((n - S m) :: seq (S (n - S m)) m).
  replace (S (n - S m)) with (n - m) by lia. cbn [filter].
  destruct (IH n a Ha) as [H|H]; [|lia].
  destruct (Nat.leb_spec a (n - S m)); cbn [length]; rewrite H; lia.
Qed.

Lemma filter_leb_len : forall n a, a <= n ->
  length (filter (fun k => Nat.leb a k) (seq 0 n)) = n - a.
Proof.
  intros n a Ha. destruct (filter_leb_row n n a Ha) as [H|H]; [|lia].
  rewrite Nat.sub_diag in H. rewrite H. lia.
Qed.

Lemma filter_map_len : forall A B (f : B -> bool) (g : A -> B) l,
  length (filter f (map g l)) = length (filter (fun x => f (g x)) l).
Proof.
  induction l as [|x l IH]; [reflexivity|]. simpl. destruct (f (g x)); simpl; rewrite IH; reflexivity.
Qed.

Lemma filter_app_len : forall A (f : A -> bool) l1 l2,
  length (filter f (l1 ++ l2)) = length (filter f l1) + length (filter f l2).
Proof. intros. rewrite filter_app, app_length. reflexivity. Qed.

Lemma triangle_rows : forall n m, m <= n ->
  2 * length (filter (fun p : nat * nat => Nat.leb (fst p) (snd p)) (list_prod (seq (n - m) m) (seq 0 n)))
  = m * (m + 1).
Proof.
  induction m as [|m IH]; intros Hm; [reflexivity|].
  change (seq (n - S m) (S m)) with ((n - S m) :: seq (S (n - S m)) m).
  replace (S (n - S m)) with (n - m) by lia.
  cbn [list_prod]. rewrite filter_app_len, filter_map_len.
  cbn [fst snd]. rewrite filter_leb_len by lia.
  specialize (IH ltac:(lia)). lia.
Qed.

Lemma triangle_count : forall n,
  length (filter (fun p : nat * nat => Nat.leb (fst p) (snd p)) (pairs n n)) = n * (n + 1) / 2.
Proof.
  intros n. pose proof (triangle_rows n n (Nat.le_refl n)) as H. rewrite Nat.sub_diag in H.
  apply Nat.div_unique with 0; [lia|]. unfold pairs. lia.
Qed.

Lemma filter_true : forall A (f : A -> bool) l, (forall x, f x = true) -> filter f l = l.
Proof. intros A f l H. induction l; simpl; [reflexivity|]. rewrite H, IHl. reflexivity. Qed.

Lemma elems_length : forall s, canonical_sector s -> length (elems s) = sector_entries s.
Proof.
  intros s [Hle Heq]. unfold elems, sector_entries, skipped. unfold is_diag in *.
  destruct (Nat.eqb_spec (s_bi s) (s_ki s)) as [He|Hn].
  - rewrite Heq by assumption.
    rewrite <- triangle_count. f_equal. apply filter_ext. intros [b k]. simpl. apply negb_involutive.
  - rewrite filter_true by reflexivity. unfold pairs. rewrite prod_length, !seq_length. reflexivity.
Qed.

Lemma sector_count_entries : forall s, is_upper s = true -> sector_count s = sector_entries s.
Proof.
  intros s H. unfold sector_count, sector_entries. rewrite H. reflexivity.
Qed.

Lemma canonical_upper : forall s, canonical_sector s -> is_upper s = true.
Proof. intros s [H _]. apply Nat.leb_le. assumption. Qed.

Lemma count_held_entries : forall s, canonical_sector s -> count_held s = sector_entries s.
Proof.
  intros s H. rewrite <- elems_length by assumption. unfold count_held, elems, skipped, is_diag.
  unfold pairs, ss_size. f_equal. apply filter_ext. intros [b k]. simpl.
  destruct (Nat.eqb (s_bi s) (s_ki s)); simpl; [|reflexivity]. symmetry. apply negb_involutive.
Qed.

Section Elements.
Variable E : env.
Notation D := (dbl E).

(** the bits stored for an element *)
Definition val (c : conversion) (s : sector) (m : mat D) (p : nat * nat) : Z :=
  narrow E (dmul E (nas_factor E c s (fst p) (snd p)) (at_ m (fst p) (snd p))).

Lemma nth_error_nth' : forall A (l : list A) n d, n < length l -> nth_error l n = Some (nth n l d).
Proof. intros. apply nth_error_nth'. assumption. Qed.

Lemma same_pair_like : forall ss i, i < length (ss_states ss) ->
  same_pair ss (nth i (ss_states ss) (0, 0)) = like_pair ss i.
Proof.
  intros ss i Hi. unfold same_pair, like_pair.
  destruct (ss_species ss); simpl; try reflexivity;
    destruct (nth i (ss_states ss) (0, 0)) as [a b]; reflexivity.
Qed.

Lemma out_element_spec : forall c s m b k, held s b k ->
  out_element E c s m b k = Ok (val c s m (b, k)).
Proof.
  intros c s m b k (Hb & Hk & _). unfold out_element.
  rewrite (nth_error_nth' _ _ _ (0, 0) Hb), (nth_error_nth' _ _ _ (0, 0) Hk). cbn [get bind].
  unfold val, conversion_factor, nas_factor. cbn [fst snd].
  rewrite !same_pair_like by assumption.
  destruct c; try reflexivity.
  destruct (like_pair (s_bra s) b), (like_pair (s_ket s) k); reflexivity.
Qed.

(** the write loops visit exactly the held elements *)
Lemma wskipped_eq : forall f s b k, (f = V0 -> is_diag s = true) -> wskipped f s b k = skipped s b k.
Proof.
  intros [] s b k H; simpl; try reflexivity. unfold skipped. rewrite H by reflexivity. reflexivity.
Qed.

Lemma wr_loop_fill : forall (g : nat -> nat -> outcome Z) (v : nat * nat -> Z) l,
  (forall b k, In (b, k) l -> g b k = Ok (v (b, k))) ->
  forall pre,
  loop2 l (fun b k '(buffer, i) =>
             bind (g b k) (fun x => bind (store buffer i x) (fun buffer => Ok (buffer, i + 1))))
    (pre ++ repeat 0%Z (length l), length pre)
  = Ok (pre ++ map v l, length pre + length l).
Proof.
  induction l as [|[b k] l IH]; intros Hg pre.
  - simpl. rewrite app_nil_r, Nat.add_0_r. reflexivity.
  - cbn [loop2]. rewrite Hg by (left; reflexivity). cbn [bind].
    cbn [length repeat]. rewrite store_app. cbn [bind].
    specialize (IH (fun b k H => Hg b k (or_intror H)) (pre ++ [v (b, k)])).
    rewrite app_length in IH. cbn [length] in IH. rewrite <- !app_assoc in IH. cbn [app] in IH.
    rewrite IH. cbn [map]. f_equal. f_equal. lia.
Qed.

Lemma wr_loop_bin_spec : forall f c s m, canonical_sector s -> (f = V0 -> is_diag s = true) ->
  wr_loop_bin E f c s m = Ok (map (val c s m) (elems s)).
Proof.
  intros f c s m Hs Hf. unfold wr_loop_bin.
  rewrite (loop2_ext _ _ _ (fun b k st => if skipped s b k then Ok st
     else (fun b k '(buffer, i) =>
             bind (out_element E c s m b k) (fun x => bind (store buffer i x)
               (fun buffer => Ok (buffer, i + 1)))) b k st)).
  2:{ intros b k [buf i] _. rewrite wskipped_eq by assumption. reflexivity. }
  rewrite loop2_filter. fold (elems s).
  rewrite <- elems_length by assumption.
  pose proof (wr_loop_fill (out_element E c s m) (val c s m) (elems s)) as H.
  assert (Hg : forall b k, In (b, k) (elems s) -> out_element E c s m b k = Ok (val c s m (b, k))).
  { intros b k Hin. apply in_elems in Hin. apply out_element_spec. assumption. }
  specialize (H Hg []). cbn [app length] in H. rewrite H. reflexivity.
Qed.

(** the read loop fills exactly the held elements from the buffer *)
Lemma rd_loop_total : forall l (buffer : list Z) i m, i + length l <= length buffer ->
  exists m', loop2 l (fun b k '(m, i) =>
      bind (get (nth_error buffer i)) (fun x => Ok (mset m b k (widen E x), i + 1))) (m, i)
    = Ok (m', i + length l).
Proof.
  induction l as [|[b k] l IH]; intros buffer i m Hl.
  - exists m. simpl. rewrite Nat.add_0_r. reflexivity.
  - cbn [loop2]. cbn [length] in Hl.
    destruct (nth_error buffer i) as [x|] eqn:Hx; [|apply nth_error_None in Hx; lia].
    cbn [get bind]. destruct (IH buffer (i + 1) (mset m b k (widen E x)) ltac:(lia)) as (m' & H).
    exists m'. rewrite H. cbn [length]. f_equal. f_equal. lia.
Qed.

Lemma rd_loop_values : forall (v : nat * nat -> Z) l pre m m' i',
  loop2 l (fun b k '(m, i) =>
      bind (get (nth_error (pre ++ map v l) i)) (fun x => Ok (mset m b k (widen E x), i + 1)))
    (m, length pre) = Ok (m', i') ->
  rows m' = rows m /\ cols m' = cols m
  /\ (forall b k, In (b, k) l -> at_ m' b k = widen E (v (b, k)))
  /\ (forall b k, ~ In (b, k) l -> at_ m' b k = at_ m b k).
Proof.
  induction l as [|[b k] l IH]; intros pre m m' i' H.
  - simpl in H. injection H as <- <-. repeat split; auto. intros b k [].
  - cbn [loop2] in H. cbn [map] in H.
    rewrite nth_error_app2, Nat.sub_diag in H by lia. cbn [nth_error get bind] in H.
    replace (pre ++ v (b, k) :: map v l) with ((pre ++ [v (b, k)]) ++ map v l) in H
      by (rewrite <- app_assoc; reflexivity).
    replace (length pre + 1) with (length (pre ++ [v (b, k)])) in H by (rewrite app_length; reflexivity).
    destruct (IH _ _ _ _ H) as (Hr & Hc & Hin & Hout). simpl in Hr, Hc.
    repeat split; auto.
    + intros b' k' [He|Hi].
      * injection He as <- <-.
        destruct (in_dec (fun p q : nat * nat => ltac:(decide equality; apply Nat.eq_dec)) (b, k) l) as [Hi|Hn].
        -- apply Hin. assumption.
        -- rewrite Hout by assumption. unfold mset. simpl. rewrite !Nat.eqb_refl. reflexivity.
      * apply Hin. assumption.
    + intros b' k' Hn. rewrite Hout by (intros Hi; apply Hn; right; assumption).
      unfold mset. simpl.
      destruct (Nat.eqb_spec b' b) as [->|]; [|reflexivity].
      destruct (Nat.eqb_spec k' k) as [->|]; [|reflexivity].
      exfalso. apply Hn. left. reflexivity.
Qed.

Lemma rd_loop_bin_filter : forall s buffer,
  rd_loop_bin E s buffer =
  bind (loop2 (elems s) (fun b k '(m, i) =>
          bind (get (nth_error buffer i)) (fun x => Ok (mset m b k (widen E x), i + 1)))
        (mzero (d0 E) (ss_size (s_bra s)) (ss_size (s_ket s)), 0))
       (fun '(m, _) => Ok m).
Proof.
  intros. unfold rd_loop_bin.
  rewrite (loop2_ext _ _ _ (fun b k st => if skipped s b k then Ok st
     else (fun b k '(m, i) =>
          bind (get (nth_error buffer i)) (fun x => Ok (mset m b k (widen E x), i + 1))) b k st)).
  2:{ intros b k [m i] _. reflexivity. }
  rewrite loop2_filter. reflexivity.
Qed.

Lemma rd_loop_bin_total : forall s buffer, canonical_sector s -> length buffer = sector_entries s ->
  exists m, rd_loop_bin E s buffer = Ok m.
Proof.
  intros s buffer Hs Hl. rewrite rd_loop_bin_filter.
  destruct (rd_loop_total (elems s) buffer 0 (mzero (d0 E) (ss_size (s_bra s)) (ss_size (s_ket s))))
    as (m & H).
  - rewrite elems_length by assumption. lia.
  - rewrite H. simpl. eauto.
Qed.

Lemma rd_loop_bin_values : forall c s m r, 
  rd_loop_bin E s (map (val c s m) (elems s)) = Ok r -> reads_back E via_binary c s m r.
Proof.
  intros c s m r H. rewrite rd_loop_bin_filter in H. inv_ok.
  match goal with H : loop2 _ _ _ = Ok _ |- _ => 
    apply (rd_loop_values (val c s m) (elems s) []) in H; destruct H as (H1 & H2 & H3 & H4) end.
  simpl in H1, H2. split; [exact H1|]. split; [exact H2|]. split.
  - intros b k Hh. rewrite H3 by (apply in_elems; assumption). reflexivity.
  - intros b k Hh. rewrite H4 by (intros Hi; apply Hh, in_elems; assumption). reflexivity.
Qed.
End Elements.
