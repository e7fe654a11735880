(** Final forms of the proofs about PnModel.v. *)
From Coq Require Import String List ZArith Reals Bool Lia Lra.
From Verif Require Import Base BaseLemmas RMat OscModel BlockModel BlockProof ObioModel MoshModel JpvModel JpvSpec JpvProof IsoModel IsoSpec IsoProof IsoFinal PnModel PnSpec PnProof.
Import ListNotations.
Open Scope Z_scope.
Open Scope outcome_scope.
Open Scope list_scope.

Definition hermitian (V : Z -> Z -> Z -> Z -> nat -> Z -> nat -> R) : Prop := forall Tz J S L i L' j, V Tz J S L i L' j = V Tz J S L' j L i.
Definition truthful (V : Z -> Z -> Z -> Z -> nat -> Z -> nat -> R) (p : pline) : Prop :=
  pl_me p = V (pl_Tz p) (pl_J p) (pl_S p) (pl_Lp p) (Z.to_nat (pl_np p)) (pl_L p) (Z.to_nat (pl_n p)).

Lemma about_true : forall V p x i y j, hermitian V -> truthful V p -> about p x i y j || about p y j x i = true ->
  pl_me p = V (pl_Tz p) (r_J x) (r_S x) (r_L x) i (r_L y) j.
Proof.
  intros V p x i y j HV Ht H. unfold truthful in Ht. apply orb_true_iff in H.
  destruct H as [H | H]; unfold about in H; rewrite !andb_true_iff, !Z.eqb_eq in H;
    destruct H as (((((((H1 & H2) & H3) & H4) & H5) & H6) & H7) & H8); rewrite Ht, H1, H4, H5, H8, !Nat2Z.id.
  - rewrite H2, H3. reflexivity.
  - rewrite HV, H6, H7. reflexivity.
Qed.
Lemma told_from : forall V Tz x i y j ps v, hermitian V -> Forall (truthful V) ps ->
  (exists p, In p ps /\ pl_Tz p = Tz /\ about p x i y j || about p y j x i = true) \/ v = V Tz (r_J x) (r_S x) (r_L x) i (r_L y) j ->
  told ps Tz x i y j v = V Tz (r_J x) (r_S x) (r_L x) i (r_L y) j.
Proof.
  intros V Tz x i y j ps v HV H. revert v. induction H as [|p ps Hp H IH]; intros v Hor.
  - destruct Hor as [(p & [] & _) | Hor]. exact Hor.
  - cbn [told fold_left]. fold (told ps Tz x i y j). apply IH.
    destruct (Z.eqb_spec (pl_Tz p) Tz) as [ET | ET]; cbn [andb].
    + destruct (about p x i y j || about p y j x i) eqn:Eab.
      * right. rewrite (about_true V p x i y j HV Hp Eab), ET. reflexivity.
      * destruct Hor as [(r & [<- | Hin] & Hr & Hg) | Hor]; [congruence | left; exists r; auto | right; exact Hor].
    + destruct Hor as [(r & [<- | Hin] & Hr & Hg) | Hor]; [congruence | left; exists r; auto | right; exact Hor].
Qed.
Lemma told_untold : forall Tz x i y j ps v, (forall p, In p ps -> pl_Tz p = Tz -> about p x i y j || about p y j x i = false) -> told ps Tz x i y j v = v.
Proof.
  intros Tz x i y j ps. induction ps as [|p ps IH]; intros v H; [reflexivity|]. cbn [told fold_left]. fold (told ps Tz x i y j).
  etransitivity; [apply IH; intros q Hq; apply H; right; exact Hq|].
  destruct (Z.eqb_spec (pl_Tz p) Tz) as [E | E]; [|reflexivity]. rewrite (H p (or_introl eq_refl) E). reflexivity.
Qed.

(** * Refusal *)
Lemma fields_complete : forall l, (exists p, read_fields l = Ok p /\ line_text p l) \/ read_fields l = Exit.
Proof.
  assert (Hi : forall l, (exists z l', l = TInt z :: l' /\ in_i32 z = true /\ scan_i (T:=R) l = Ok (z, l')) \/ scan_i (T:=R) l = Exit).
  { intros [|[z|c|t] l]; try (right; reflexivity). cbn [scan_i]. destruct (in_i32 z) eqn:E; [left; eauto 10 | right; reflexivity]. }
  assert (Hd : forall l, (exists w v l', l = w :: l' /\ word_value w = Some v /\ scan_d l = Ok (v, l')) \/ scan_d l = Exit).
  { intros [|w l]; [right; reflexivity|]. cbn [scan_d]. destruct (word_value w) eqn:E; [left; eauto 10 | right; reflexivity]. }
  intros l. unfold read_fields.
  destruct (Hi l) as [(z1 & l1 & -> & I1 & ->) | ->]; [|right; reflexivity]. cbn [bind].
  destruct (Hi l1) as [(z2 & l2 & -> & I2 & ->) | ->]; [|right; reflexivity]. cbn [bind].
  destruct (Hi l2) as [(z3 & l3 & -> & I3 & ->) | ->]; [|right; reflexivity]. cbn [bind].
  destruct (Hi l3) as [(z4 & l4 & -> & I4 & ->) | ->]; [|right; reflexivity]. cbn [bind].
  destruct (Hi l4) as [(z5 & l5 & -> & I5 & ->) | ->]; [|right; reflexivity]. cbn [bind].
  destruct (Hi l5) as [(z6 & l6 & -> & I6 & ->) | ->]; [|right; reflexivity]. cbn [bind].
  destruct (Hi l6) as [(z7 & l7 & -> & I7 & ->) | ->]; [|right; reflexivity]. cbn [bind].
  destruct (Hd l7) as [(w & v & l8 & -> & Hw & ->) | ->]; [|right; reflexivity]. cbn [bind].
  left. eexists. split; [reflexivity|]. exists w, l8. cbn [pl_np pl_Lp pl_n pl_L pl_S pl_J pl_Tz pl_me forallb app]. rewrite I1, I2, I3, I4, I5, I6, I7. auto.
Qed.
Lemma for_each_app : forall {A S} (l1 l2 : list A) (f : A -> S -> outcome S) s, for_each (l1 ++ l2) f s = (s' <- for_each l1 f s ;; for_each l2 f s').
Proof.
  intros A S l1 l2 f. induction l1 as [|a l1 IH]; intros s; [reflexivity|]. cbn [app for_each]. destruct (f a s); cbn [bind]; try reflexivity. apply IH.
Qed.
Lemma bad_line : forall sp sectors ps lines l rest ms, rspace_ok sp -> antisymmetric sp -> NoDup sectors -> upper sectors -> triple_ok sp sectors ms ->
  Forall2 (fun p l => line_text p l /\ line_ok sp sectors p) ps lines ->
  (forall ms', (p <- read_fields l ;; store_line sp sectors p ms') = Exit) -> read_pn sp sectors (lines ++ l :: rest) ms = Exit.
Proof.
  intros sp sectors ps lines l rest ms Hs Ha Hn Hu Hms Hl Hbad. unfold read_pn. rewrite for_each_app.
  destruct (file_stored sp sectors ps lines Hs Ha Hn Hu Hl ms Hms) as (ms' & E & _). unfold read_pn in E. rewrite E. cbn [bind for_each]. rewrite Hbad. reflexivity.
Qed.
Lemma unreadable : forall sp sectors ps lines l rest ms, rspace_ok sp -> antisymmetric sp -> NoDup sectors -> upper sectors -> triple_ok sp sectors ms ->
  Forall2 (fun p l => line_text p l /\ line_ok sp sectors p) ps lines ->
  (forall p, ~ line_text p l) -> read_pn sp sectors (lines ++ l :: rest) ms = Exit.
Proof.
  intros sp sectors ps lines l rest ms Hs Ha Hn Hu Hms Hl Hbad. apply (bad_line sp sectors ps lines l rest ms Hs Ha Hn Hu Hms Hl). intros ms'.
  destruct (fields_complete l) as [(p & _ & H) | ->]; [|reflexivity]. exfalso. exact (Hbad p H).
Qed.
Lemma absent : forall sp sectors ps lines p l rest ms, rspace_ok sp -> antisymmetric sp -> NoDup sectors -> upper sectors -> triple_ok sp sectors ms ->
  Forall2 (fun p l => line_text p l /\ line_ok sp sectors p) ps lines -> line_text p l ->
  (forall x, In x sp -> (r_L x, r_S x, r_J x) <> (pl_L p, pl_S p, pl_J p)) \/ (forall x, In x sp -> (r_L x, r_S x, r_J x) <> (pl_Lp p, pl_S p, pl_J p)) ->
  read_pn sp sectors (lines ++ l :: rest) ms = Exit.
Proof.
  intros sp sectors ps lines p l rest ms Hs Ha Hn Hu Hms Hl Ht Hbad. apply (bad_line sp sectors ps lines l rest ms Hs Ha Hn Hu Hms Hl). intros ms'.
  rewrite (fields_read p l Ht). cbn [bind]. unfold store_line.
  assert (Hnone : forall L S J T g, (forall x, In x sp -> (r_L x, r_S x, r_J x) <> (L, S, J)) -> find_sub sp L S J T g = None).
  { intros L S_ J T g H. unfold find_sub. destruct (find_ix _ sp) as [i|] eqn:E; [|reflexivity]. apply find_ix_some in E. destruct E as (x & Hx & Hh).
    apply has_labels_ok in Hh. unfold labels_of in Hh. exfalso. apply (H x (nth_error_In _ _ Hx)). congruence. }
  destruct Hbad as [Hbad | Hbad]; rewrite (Hnone _ _ _ _ _ Hbad); [destruct (find_sub sp (pl_Lp p) _ _ _ _)|]; reflexivity.
Qed.

(** * Wrong lines that are not refused *)
Definition odd_space : rspace := [RSub 0 1 1 0 0 1; RSub 1 1 1 1 1 1].
Definition odd_sectors : lsectors := [(0, 0); (1, 1)]%nat.
Definition odd_zero : blocks R := [mzero 0%R 1 1; mzero 0%R 1 1].
Definition tz_line : pline := PL 0 0 0 0 1 1 2 5%R.
Definition parity_line : pline := PL 0 0 0 1 1 1 0 5%R.
Definition text_of_line (p : pline) : line :=
  [TInt (pl_np p); TInt (pl_Lp p); TInt (pl_n p); TInt (pl_L p); TInt (pl_S p); TInt (pl_J p); TInt (pl_Tz p); TNum (pl_me p)].
Lemma odd_ok : rspace_ok odd_space /\ antisymmetric odd_space /\ NoDup odd_sectors /\ upper odd_sectors /\ triple_ok odd_space odd_sectors [odd_zero; odd_zero; odd_zero].
Proof.
  split. { unfold rspace_ok. cbn. constructor; [intros [E|[]]; discriminate|constructor; [intros []|constructor]]. }
  split. { intros x [<- | [<- | []]]; repeat split. }
  split. { unfold odd_sectors. constructor; [intros [E|[]]; discriminate|constructor; [intros []|constructor]]. }
  split. { intros b k [E | [E | []]]; injection E as <- <-; lia. }
  split; [reflexivity|]. repeat constructor.
Qed.
Lemma tz_undefined : exists sp sectors p l ms, rspace_ok sp /\ antisymmetric sp /\ NoDup sectors /\ upper sectors /\ triple_ok sp sectors ms
  /\ line_text p l /\ ~ (-1 <= pl_Tz p <= 1) /\ read_pn sp sectors [l] ms = UB.
Proof.
  exists odd_space, odd_sectors, tz_line, (text_of_line tz_line), [odd_zero; odd_zero; odd_zero]. destruct odd_ok as (H1 & H2 & H3 & H4 & H5). do 5 (split; [assumption|]).
  split. { exists (TNum 5%R), []. split; [reflexivity|]. split; reflexivity. }
  split; [cbn; lia|]. reflexivity.
Qed.
Lemma parity_undefined : exists sp sectors p l ms, rspace_ok sp /\ antisymmetric sp /\ NoDup sectors /\ upper sectors /\ triple_ok sp sectors ms
  /\ line_text p l /\ (pl_L p + pl_Lp p) mod 2 = 1 /\ read_pn sp sectors [l] ms = UB.
Proof.
  exists odd_space, odd_sectors, parity_line, (text_of_line parity_line), [odd_zero; odd_zero; odd_zero]. destruct odd_ok as (H1 & H2 & H3 & H4 & H5). do 5 (split; [assumption|]).
  split. { exists (TNum 5%R), []. split; [reflexivity|]. split; reflexivity. }
  split; reflexivity.
Qed.

(** * Arguments *)
Lemma arguments_ok : forall to_int name a b src tgt more Nmax Jmax, to_int a = Some Nmax -> to_int b = Some Jmax ->
  pn2rel_arguments to_int (name :: a :: b :: src :: tgt :: more) = Ok (Nmax, Jmax, src, tgt).
Proof. intros to_int name a b src tgt more Nmax Jmax Ha Hb. unfold pn2rel_arguments, stoi. cbn. rewrite Ha. cbn. rewrite Hb. reflexivity. Qed.
Lemma arguments_few : forall to_int args, (length args < 3)%nat -> pn2rel_arguments to_int args = Exit.
Proof. intros to_int args H. unfold pn2rel_arguments. apply Nat.ltb_lt in H. rewrite H. reflexivity. Qed.
Lemma arguments_undefined : forall to_int args a b, length args = 3%nat \/ length args = 4%nat -> nth_error args 1 = Some a -> nth_error args 2 = Some b ->
  to_int a <> None -> to_int b <> None -> pn2rel_arguments to_int args = UB.
Proof.
  intros to_int args a b Hl H1 H2 Ha Hb. unfold pn2rel_arguments.
  replace (Nat.ltb (length args) 3) with false by (symmetry; apply Nat.ltb_ge; lia). rewrite H1, H2. cbn [get bind]. unfold stoi.
  destruct (to_int a); [|congruence]. destruct (to_int b); [|congruence]. cbn [bind].
  destruct (nth_error args 3) eqn:E3; [|reflexivity]. cbn [get bind].
  destruct (nth_error args 4) eqn:E4; [|reflexivity]. exfalso. assert (nth_error args 4 <> None) as N by congruence. apply nth_error_Some in N. lia.
Qed.
Lemma arguments_example : exists to_int args, length args = 4%nat /\ pn2rel_arguments to_int args = UB.
Proof. exists (fun _ => Some 2), ["pn2rel"; "2"; "2"; "in.dat"]%string. split; reflexivity. Qed.
