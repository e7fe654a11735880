(** Finite sums of real numbers, real matrices, and matrices filled by double loops. *)
From Coq Require Import List ZArith Reals Lra Lia Bool Permutation.
From Verif Require Import Base BaseLemmas.
Import ListNotations.
Open Scope R_scope.

(** * sums over lists *)
Fixpoint lsum {A} (l : list A) (f : A -> R) : R :=
  match l with [] => 0 | x :: l' => f x + lsum l' f end.
Definition rsum (n : nat) (f : nat -> R) : R := lsum (seq 0 n) f.

Lemma lsum_ext : forall A (l : list A) f g, (forall x, In x l -> f x = g x) -> lsum l f = lsum l g.
Proof.
  intros A l f g. induction l as [|x l IH]; cbn; intros H; [reflexivity|].
  rewrite (H x (or_introl eq_refl)), IH by (intros; apply H; right; assumption). reflexivity.
Qed.
Lemma lsum_0 : forall A (l : list A) f, (forall x, In x l -> f x = 0) -> lsum l f = 0.
Proof.
  intros A l f. induction l as [|x l IH]; cbn; intros H; [reflexivity|].
  rewrite (H x (or_introl eq_refl)), IH by (intros; apply H; right; assumption). ring.
Qed.
Lemma lsum_app : forall A (l1 l2 : list A) f, lsum (l1 ++ l2) f = lsum l1 f + lsum l2 f.
Proof. intros A l1 l2 f. induction l1 as [|x l IH]; cbn; [|rewrite IH]; ring. Qed.
Lemma lsum_plus : forall A (l : list A) f g, lsum l (fun x => f x + g x) = lsum l f + lsum l g.
Proof. intros A l f g. induction l as [|x l IH]; cbn; [|rewrite IH]; ring. Qed.
Lemma lsum_scale : forall A (l : list A) c f, lsum l (fun x => c * f x) = c * lsum l f.
Proof. intros A l c f. induction l as [|x l IH]; cbn; [|rewrite IH]; ring. Qed.
Lemma lsum_scale_r : forall A (l : list A) c f, lsum l (fun x => f x * c) = lsum l f * c.
Proof. intros A l c f. induction l as [|x l IH]; cbn; [|rewrite IH]; ring. Qed.
Lemma lsum_opp : forall A (l : list A) f, lsum l (fun x => - f x) = - lsum l f.
Proof. intros A l f. induction l as [|x l IH]; cbn; [|rewrite IH]; ring. Qed.
Lemma lsum_minus : forall A (l : list A) f g, lsum l (fun x => f x - g x) = lsum l f - lsum l g.
Proof. intros A l f g. induction l as [|x l IH]; cbn; [|rewrite IH]; ring. Qed.
Lemma lsum_map : forall A B (g : A -> B) l f, lsum (map g l) f = lsum l (fun x => f (g x)).
Proof. intros A B g l f. induction l as [|x l IH]; cbn; [reflexivity|rewrite IH; reflexivity]. Qed.
Lemma lsum_swap : forall A B (l : list A) (k : list B) f,
  lsum l (fun x => lsum k (fun y => f x y)) = lsum k (fun y => lsum l (fun x => f x y)).
Proof.
  intros A B l k f. induction l as [|x l IH]; cbn.
  - symmetry. apply lsum_0. reflexivity.
  - rewrite IH, <- lsum_plus. reflexivity.
Qed.
Lemma lsum_perm : forall A (l k : list A) f, Permutation l k -> lsum l f = lsum k f.
Proof. intros A l k f H. induction H; cbn; lra. Qed.
Lemma lsum_prod : forall A B (l : list A) (k : list B) f,
  lsum (list_prod l k) f = lsum l (fun x => lsum k (fun y => f (x, y))).
Proof.
  intros A B l k f. induction l as [|x l IH]; cbn; [reflexivity|]. rewrite lsum_app, IH, lsum_map. reflexivity.
Qed.
Lemma lsum_filter : forall A (p : A -> bool) l f, lsum (filter p l) f = lsum l (fun x => if p x then f x else 0).
Proof. intros A p l f. induction l as [|x l IH]; cbn; [reflexivity|]. destruct (p x); cbn; rewrite IH; ring. Qed.
Lemma lsum_mul : forall A B (l : list A) (k : list B) f g,
  lsum l f * lsum k g = lsum l (fun x => lsum k (fun y => f x * g y)).
Proof.
  intros A B l k f g. rewrite <- lsum_scale_r. apply lsum_ext. intros x _. rewrite lsum_scale. reflexivity.
Qed.
(** sum with a single nonzero term *)
Lemma lsum_one : forall A (dec : forall x y : A, {x = y} + {x <> y}) l a (f : A -> R), NoDup l -> In a l ->
  (forall x, In x l -> x <> a -> f x = 0) -> lsum l f = f a.
Proof.
  intros A dec l a f. induction l as [|x l IH]; cbn; intros Hn Hin H; [contradiction|].
  inversion Hn as [|? ? Hnin Hn']; subst. destruct (dec x a) as [->|Hne].
  - rewrite lsum_0; [ring|]. intros y Hy. apply H; [right; exact Hy|]. intros ->. contradiction.
  - destruct Hin as [->|Hin]; [elim Hne; reflexivity|].
    rewrite (H x (or_introl eq_refl) Hne), IH by (try assumption; intros; apply H; auto). ring.
Qed.
Lemma lsum_nodup_eq : forall A (l k : list A) f, NoDup l -> NoDup k -> (forall x, In x l <-> In x k) -> lsum l f = lsum k f.
Proof. intros A l k f Hl Hk H. apply lsum_perm. apply NoDup_Permutation; assumption. Qed.

Lemma rsum_ext : forall n f g, (forall i, (i < n)%nat -> f i = g i) -> rsum n f = rsum n g.
Proof. intros n f g H. apply lsum_ext. intros x Hx. apply in_seq in Hx. apply H. lia. Qed.
Lemma rsum_0 : forall n f, (forall i, (i < n)%nat -> f i = 0) -> rsum n f = 0.
Proof. intros n f H. apply lsum_0. intros x Hx. apply in_seq in Hx. apply H. lia. Qed.
Lemma rsum_plus : forall n f g, rsum n (fun i => f i + g i) = rsum n f + rsum n g.
Proof. intros. apply lsum_plus. Qed.
Lemma rsum_scale : forall n c f, rsum n (fun i => c * f i) = c * rsum n f.
Proof. intros. apply lsum_scale. Qed.
Lemma rsum_scale_r : forall n c f, rsum n (fun i => f i * c) = rsum n f * c.
Proof. intros. apply lsum_scale_r. Qed.
Lemma rsum_swap : forall n m f, rsum n (fun i => rsum m (fun j => f i j)) = rsum m (fun j => rsum n (fun i => f i j)).
Proof. intros. apply lsum_swap. Qed.
Lemma rsum_one : forall n a f, (a < n)%nat -> (forall i, (i < n)%nat -> i <> a -> f i = 0) -> rsum n f = f a.
Proof.
  intros n a f Ha H. apply (lsum_one _ Nat.eq_dec); [apply seq_NoDup|apply in_seq; lia|].
  intros x Hx Hne. apply in_seq in Hx. apply H; [lia|exact Hne].
Qed.
Lemma rsum_succ : forall n f, rsum (S n) f = rsum n f + f n.
Proof.
  intros n f. unfold rsum. replace (S n) with (n + 1)%nat by lia. rewrite seq_app, lsum_app. cbn. ring.
Qed.
Lemma rsum_nth : forall A (d : A) l g, rsum (length l) (fun i => g (nth i l d)) = lsum l g.
Proof.
  intros A d l g. induction l as [|x l IH] using rev_ind; [reflexivity|].
  rewrite app_length, lsum_app. cbn [length]. rewrite Nat.add_1_r, rsum_succ, <- IH. f_equal.
  - apply rsum_ext. intros i Hi. rewrite app_nth1 by exact Hi. reflexivity.
  - rewrite app_nth2 by lia. rewrite Nat.sub_diag. cbn. ring.
Qed.

(** * matrices *)
Definition meq (m m' : mat R) : Prop :=
  rows m = rows m' /\ cols m = cols m'
  /\ forall i j, (i < rows m)%nat -> (j < cols m)%nat -> at_ m i j = at_ m' i j.
Definition transpose (m : mat R) : mat R := Mat (cols m) (rows m) (fun i j => at_ m j i).
(** Eigen product: the inner dimensions are asserted to agree *)
Definition mmul (a b : mat R) : outcome (mat R) :=
  cassert (Nat.eqb (cols a) (rows b)) ;;;
  Ok (Mat (rows a) (cols b) (fun i j => rsum (cols a) (fun k => at_ a i k * at_ b k j))).

(** Eigen element access *)
Definition mat_put {D} (m : mat D) (i j : nat) (x : D) : outcome (mat D) :=
  cassert (Nat.ltb i (rows m) && Nat.ltb j (cols m)) ;;; Ok (mset m i j x).

(** a zero matrix filled by a double loop over all elements *)
Definition fill {D} (z : D) (nb nk : nat) (el : nat -> nat -> outcome D) : outcome (mat D) :=
  loop2 (pairs nb nk) (fun i j m => x <- el i j ;; mat_put m i j x) (mzero z nb nk).

Lemma fill_loop : forall D (nb nk : nat) (el : nat -> nat -> outcome D) (f : nat -> nat -> D) l m,
  NoDup l -> (forall i j, In (i, j) l -> (i < nb)%nat /\ (j < nk)%nat /\ el i j = Ok (f i j)) -> rows m = nb -> cols m = nk ->
  exists r, loop2 l (fun i j m => x <- el i j ;; mat_put m i j x) m = Ok r /\ rows r = nb /\ cols r = nk
  /\ forall i j, (In (i, j) l -> at_ r i j = f i j) /\ (~ In (i, j) l -> at_ r i j = at_ m i j).
Proof.
  intros D nb nk el f l. induction l as [|[a b] l IH]; intros m Hn H Hr Hc.
  - exists m. repeat split; auto. contradiction.
  - inversion Hn as [|? ? Hnin Hn']; subst. destruct (H a b (or_introl eq_refl)) as [Ha [Hb He]].
    cbn [loop2]. rewrite He. unfold mat_put. cbn [bind]. rewrite (proj2 (Nat.ltb_lt a _) Ha), (proj2 (Nat.ltb_lt b _) Hb).
    cbn [andb cassert bind]. destruct (IH (mset m a b (f a b)) Hn') as (r & E & Er & Ec & Hat); [intros; apply H; right; assumption|reflexivity|reflexivity|].
    exists r. split; [exact E|]. split; [exact Er|]. split; [exact Ec|]. intros i j. destruct (Hat i j) as [H1 H2]. split.
    + intros [Heq|Hin]; [|auto]. injection Heq as -> ->. rewrite H2 by exact Hnin. unfold mset. cbn. rewrite !Nat.eqb_refl. reflexivity.
    + intros Hni. rewrite H2 by (intros Hin; apply Hni; right; exact Hin). unfold mset. cbn.
      destruct (Nat.eqb_spec i a) as [->|]; [|reflexivity]. destruct (Nat.eqb_spec j b) as [->|]; [|reflexivity]. elim Hni. left. reflexivity.
Qed.
Lemma fill_ok : forall D (z : D) nb nk el (f : nat -> nat -> D),
  (forall i j, (i < nb)%nat -> (j < nk)%nat -> el i j = Ok (f i j)) ->
  exists r, fill z nb nk el = Ok r /\ rows r = nb /\ cols r = nk
  /\ forall i j, (i < nb)%nat -> (j < nk)%nat -> at_ r i j = f i j.
Proof.
  intros D z nb nk el f H.
  destruct (fill_loop D nb nk el f (pairs nb nk) (mzero z nb nk) (NoDup_pairs nb nk)) as (r & E & Er & Ec & Hat); try reflexivity.
  - intros i j Hin. apply in_pairs in Hin. destruct Hin. auto.
  - exists r. split; [exact E|]. split; [exact Er|]. split; [exact Ec|]. intros i j Hi Hj. apply Hat. apply in_pairs. auto.
Qed.
(** order independence of such loops *)
Lemma fill_any_order : forall D (z : D) nb nk el (f : nat -> nat -> D) order,
  (forall i j, (i < nb)%nat -> (j < nk)%nat -> el i j = Ok (f i j)) -> Permutation order (pairs nb nk) ->
  exists r, loop2 order (fun i j m => x <- el i j ;; mat_put m i j x) (mzero z nb nk) = Ok r /\ rows r = nb /\ cols r = nk
  /\ forall i j, (i < nb)%nat -> (j < nk)%nat -> at_ r i j = f i j.
Proof.
  intros D z nb nk el f order H Hp.
  assert (Hn : NoDup order) by (eapply Permutation_NoDup; [apply Permutation_sym; exact Hp|apply NoDup_pairs]).
  destruct (fill_loop D nb nk el f order (mzero z nb nk) Hn) as (r & E & Er & Ec & Hat); try reflexivity.
  - intros i j Hin. apply (Permutation_in _ Hp) in Hin. apply in_pairs in Hin. destruct Hin. auto.
  - exists r. split; [exact E|]. split; [exact Er|]. split; [exact Ec|]. intros i j Hi Hj. apply Hat.
    apply (Permutation_in _ (Permutation_sym Hp)). apply in_pairs. auto.
Qed.
