(** Lemmas about statements of control files. *)
From Coq Require Import List.
From Verif Require Import StmtSpec.
Import ListNotations.
Section Statements.
Context {S : Type}.
Lemma the_last_snoc : forall A (f : S -> option A) l s, the_last f (l ++ [s]) = match f s with Some x => Some x | None => the_last f l end.
Proof. intros. unfold the_last. rewrite rev_app_distr. reflexivity. Qed.
Lemma the_first_snoc : forall A (f : S -> option A) l s, the_first f (l ++ [s]) = match the_first f l with Some x => Some x | None => f s end.
Proof. intros A f l s. induction l as [|t l IH]; cbn; [destruct (f s); reflexivity|]. destruct (f t); [reflexivity|exact IH]. Qed.
Lemma every_app : forall A (f : S -> option A) l m, every f (l ++ m) = every f l ++ every f m.
Proof. intros. apply flat_map_app. Qed.
Lemma every_snoc : forall A (f : S -> option A) l s, every f (l ++ [s]) = every f l ++ match f s with Some x => [x] | None => [] end.
Proof. intros. rewrite every_app. cbn. rewrite app_nil_r. reflexivity. Qed.
Fixpoint at_last {A} (g : A -> A) (l : list A) : list A := match l with [] => [] | [x] => [g x] | x :: l' => x :: at_last g l' end.
Lemma at_last_snoc : forall A (g : A -> A) l x, at_last g (l ++ [x]) = l ++ [g x].
Proof. intros A g l x. induction l as [|y [|z l] IH]; [reflexivity|reflexivity|]. change (y :: at_last g ((z :: l) ++ [x]) = y :: (z :: l) ++ [g x]). rewrite IH. reflexivity. Qed.
Lemma snoc_case : forall C (l : list C), l = [] \/ exists l' x, l = l' ++ [x].
Proof. intros C l. destruct (rev l) as [|x r] eqn:E; [left; apply (f_equal (@rev C)) in E; rewrite rev_involutive in E; exact E|right]. exists (rev r), x. apply (f_equal (@rev C)) in E. rewrite rev_involutive in E. exact E. Qed.
Lemma at_last_same : forall A B (l : list (A * list B)), at_last (fun p => (fst p, snd p ++ [])) l = l.
Proof. intros A B l. destruct (snoc_case _ l) as [->|(l' & [a b] & ->)]; [reflexivity|]. rewrite at_last_snoc. cbn. rewrite app_nil_r. reflexivity. Qed.
Section Parts.
Context {A B : Type}.
Variable start : S -> option A.
Variable item : S -> option B.
Lemma up_to_start : forall l s a, start s = Some a -> up_to start (l ++ [s]) = up_to start l.
Proof. intros l s a H. induction l as [|t l IH]; cbn; [rewrite H; reflexivity|]. destruct (start t); [reflexivity|]. f_equal. exact IH. Qed.
Lemma parts_nil : forall l, parts start item l = [] -> forall m, up_to start (l ++ m) = l ++ up_to start m.
Proof. induction l as [|t l IH]; intros H m; [reflexivity|]. cbn in *. destruct (start t); [discriminate|]. f_equal. apply IH. exact H. Qed.
Lemma up_to_inside : forall l m, parts start item l <> [] -> up_to start (l ++ m) = up_to start l.
Proof. induction l as [|t l IH]; intros m H; [contradiction (H eq_refl)|]. cbn in *. destruct (start t); [reflexivity|]. f_equal. apply IH. exact H. Qed.
Lemma parts_snoc : forall l s, parts start item (l ++ [s]) =
  match start s with Some a => parts start item l ++ [(a, [])] | None => at_last (fun p => (fst p, snd p ++ every item [s])) (parts start item l) end.
Proof.
  intros l s. induction l as [|t l IH].
  - cbn. destruct (start s); reflexivity.
  - cbn [app parts]. rewrite IH. destruct (start t) as [a|] eqn:Et; [|reflexivity]. destruct (start s) as [b|] eqn:Es.
    + rewrite (up_to_start l s b Es). reflexivity.
    + destruct (parts start item l) as [|p ps] eqn:E.
      * rewrite (parts_nil l E), <- (app_nil_r l) at 1. cbn [at_last fst snd]. cbn [up_to]. rewrite Es. rewrite every_app. 
        rewrite <- (app_nil_r l) at 2. rewrite (parts_nil l E []). cbn [up_to]. rewrite !app_nil_r. reflexivity.
      * rewrite up_to_inside by (rewrite E; discriminate). reflexivity.
Qed.
Lemma parts_last : forall l, match the_last start l with
  | Some a => exists ps its, parts start item l = ps ++ [(a, its)]
  | None => parts start item l = [] end.
Proof.
  intros l. induction l as [|s l IH] using rev_ind; [reflexivity|]. rewrite the_last_snoc, parts_snoc. destruct (start s) as [a|]; [eauto|].
  destruct (the_last start l) as [a|]; [|rewrite IH; reflexivity]. destruct IH as (ps & its & ->). rewrite at_last_snoc. cbn [fst snd]. eauto.
Qed.
Lemma parts_fst : forall l, map fst (parts start item l) = every start l.
Proof. induction l as [|s l IH]; [reflexivity|]. cbn. destruct (start s); cbn; rewrite IH; reflexivity. Qed.
End Parts.
(** a condition on each statement and those before it *)
Lemma placed_step : forall (fit : list S -> S -> Prop) l s,
  (forall pre t post, l ++ [s] = pre ++ t :: post -> fit pre t) <-> (forall pre t post, l = pre ++ t :: post -> fit pre t) /\ fit l s.
Proof.
  intros fit l s. split.
  - intros H. split; [|exact (H l s [] eq_refl)]. intros pre t post E. apply (H pre t (post ++ [s])). rewrite E, <- app_assoc. reflexivity.
  - intros [H1 H2] pre t post E. destruct (snoc_case _ post) as [->|(post' & x & ->)].
    + apply app_inj_tail in E. destruct E as [-> ->]. exact H2.
    + rewrite app_comm_cons, app_assoc in E. apply app_inj_tail in E. destruct E as [E _]. exact (H1 pre t post' E).
Qed.
End Statements.
