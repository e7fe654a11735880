(** Lemmas for C126: what the control file of h2mixer means. *)
From Coq Require Import String List ZArith Reals Bool Lia.
From Verif Require Import Base BaseLemmas RMat H2Model MapModel XformModel SepModel OscModel BlockModel ObioModel ObioMore MixModel MixProof ObmModel NatModel RgModel HmModel HmSpec HmProof.
Import ListNotations.
Open Scope string_scope.
Open Scope list_scope.
Open Scope outcome_scope.

Lemma last_of_snoc : forall A (f : statement -> option A) l s, last_of f (l ++ [s]) = match f s with Some x => Some x | None => last_of f l end.
Proof. intros. unfold last_of. rewrite rev_app_distr. reflexivity. Qed.
Lemma first_of_snoc : forall A (f : statement -> option A) l s, first_of f (l ++ [s]) = match first_of f l with Some x => Some x | None => f s end.
Proof. intros A f l s. induction l as [|t l IH]; cbn; [destruct (f s); reflexivity|]. destruct (f t); [reflexivity|exact IH]. Qed.
Lemma all_of_app : forall A (f : statement -> option A) l m, all_of f (l ++ m) = all_of f l ++ all_of f m.
Proof. intros. apply flat_map_app. Qed.
Lemma all_of_snoc : forall A (f : statement -> option A) l s, all_of f (l ++ [s]) = all_of f l ++ match f s with Some x => [x] | None => [] end.
Proof. intros. rewrite all_of_app. cbn. rewrite app_nil_r. reflexivity. Qed.

Fixpoint map_last {A} (g : A -> A) (l : list A) : list A := match l with [] => [] | [x] => [g x] | x :: l' => x :: map_last g l' end.
Lemma map_last_snoc : forall A (g : A -> A) l x, map_last g (l ++ [x]) = l ++ [g x].
Proof. intros A g l x. induction l as [|y [|z l] IH]; [reflexivity|reflexivity|]. change (y :: map_last g ((z :: l) ++ [x]) = y :: (z :: l) ++ [g x]). rewrite IH. reflexivity. Qed.
Lemma on_last_snoc : forall A (f : A -> outcome A) l x, on_last f (l ++ [x]) = bind (f x) (fun y => Ok (l ++ [y])).
Proof.
  intros A f l x. induction l as [|y [|z l] IH]; [reflexivity|cbn; destruct (f x); reflexivity|].
  change (bind (on_last f ((z :: l) ++ [x])) (fun r => Ok (y :: r)) = bind (f x) (fun v => Ok (y :: (z :: l) ++ [v]))). rewrite IH. destruct (f x); reflexivity.
Qed.
Section Sections.
Context {A B : Type}.
Variable start : statement -> option A.
Variable item : statement -> option B.
Lemma before_start : forall l s a, start s = Some a -> before start (l ++ [s]) = before start l.
Proof. intros l s a H. induction l as [|t l IH]; cbn; [rewrite H; reflexivity|]. destruct (start t); [reflexivity|]. f_equal. exact IH. Qed.
Lemma sections_nil : forall l, sections start item l = [] -> forall m, before start (l ++ m) = l ++ before start m.
Proof. induction l as [|t l IH]; intros H m; [reflexivity|]. cbn in *. destruct (start t); [discriminate|]. f_equal. apply IH. exact H. Qed.
Lemma before_inside : forall l m, sections start item l <> [] -> before start (l ++ m) = before start l.
Proof. induction l as [|t l IH]; intros m H; [contradiction (H eq_refl)|]. cbn in *. destruct (start t); [reflexivity|]. f_equal. apply IH. exact H. Qed.
Lemma sections_snoc : forall l s, sections start item (l ++ [s]) =
  match start s with Some a => sections start item l ++ [(a, [])] | None => map_last (fun p => (fst p, snd p ++ all_of item [s])) (sections start item l) end.
Proof.
  intros l s. induction l as [|t l IH].
  - cbn. destruct (start s); reflexivity.
  - cbn [app sections]. rewrite IH. destruct (start t) as [a|] eqn:Et; [|reflexivity]. destruct (start s) as [b|] eqn:Es.
    + rewrite (before_start l s b Es). reflexivity.
    + destruct (sections start item l) as [|p ps] eqn:E.
      * rewrite (sections_nil l E), <- (app_nil_r l) at 1. cbn [map_last fst snd]. cbn [before]. rewrite Es. rewrite all_of_app. 
        rewrite <- (app_nil_r l) at 2. rewrite (sections_nil l E []). cbn [before]. rewrite !app_nil_r. reflexivity.
      * rewrite before_inside by (rewrite E; discriminate). reflexivity.
Qed.
Lemma snoc_cases : forall C (l : list C), l = [] \/ exists l' x, l = l' ++ [x].
Proof. intros C l. destruct (rev l) as [|x r] eqn:E; [left; apply (f_equal (@rev C)) in E; rewrite rev_involutive in E; exact E|right]. exists (rev r), x. apply (f_equal (@rev C)) in E. rewrite rev_involutive in E. exact E. Qed.
Lemma sections_last : forall l, match last_of start l with
  | Some a => exists ps its, sections start item l = ps ++ [(a, its)]
  | None => sections start item l = [] end.
Proof.
  intros l. induction l as [|s l IH] using rev_ind; [reflexivity|]. rewrite last_of_snoc, sections_snoc. destruct (start s) as [a|]; [eauto|].
  destruct (last_of start l) as [a|]; [|rewrite IH; reflexivity]. destruct IH as (ps & its & ->). rewrite map_last_snoc. cbn [fst snd]. eauto.
Qed.
End Sections.

Definition fits (pre : list statement) (s : statement) : Prop :=
  match s with
  | AddOb _ _ => exists id terms, last_of ob_of pre = Some (OLinear id terms)
  | Add _ _ => exists f, In (DefTarget f) pre
  | _ => True
  end.
Lemma placed_snoc : forall l s, placed (l ++ [s]) <-> placed l /\ fits l s.
Proof.
  intros l s. split.
  - intros H. split; [|exact (H l s [] eq_refl)]. intros pre t post E. apply (H pre t (post ++ [s])). rewrite E, <- app_assoc. reflexivity.
  - intros [H1 H2] pre t post E. destruct (snoc_cases _ post) as [->|(post' & x & ->)].
    + apply app_inj_tail in E. destruct E as [-> ->]. exact H2.
    + rewrite app_comm_cons, app_assoc in E. apply app_inj_tail in E. destruct E as [E _]. exact (H1 pre t post' E).
Qed.
Lemma placed_nil : placed [].
Proof. intros pre s post E. destruct pre; discriminate. Qed.
Lemma means_nil : means control0 [].
Proof. constructor; try reflexivity. apply NoDup_nil. Qed.
Lemma target_in : forall l, (exists f, In (DefTarget f) l) <-> last_of target_of l <> None.
Proof.
  intros l. induction l as [|s l IH] using rev_ind; [cbn; split; [intros [f []]|intros []; reflexivity]|]. rewrite last_of_snoc. split.
  - intros [f H]. apply in_app_or in H. destruct (target_of s) eqn:E; [discriminate|]. apply IH. destruct H as [H|[->|[]]]; [eauto|discriminate].
  - intros H. destruct (target_of s) as [f|] eqn:E.
    + exists f. apply in_or_app. right. left. destruct s; try discriminate. cbn in E. congruence.
    + apply IH in H. destruct H as [f H]. exists f. apply in_or_app. left. exact H.
Qed.
Lemma assoc_app : forall A (l m : list (string * A)) id, assoc (l ++ m) id = match assoc l id with Some x => Some x | None => assoc m id end.
Proof. intros A l m id. induction l as [|[x a] l IH]; [reflexivity|]. cbn. destruct (String.eqb id x); [reflexivity|exact IH]. Qed.
Lemma assoc_none_in : forall A (l : list (string * A)) id, assoc l id = None -> ~ In id (map fst l).
Proof. intros A l id H Hin. induction l as [|[x a] l IH]; [destruct Hin|]. cbn in *. destruct (String.eqb_spec id x); [discriminate|]. destruct Hin as [->|Hin]; [congruence|auto]. Qed.
Lemma nodup_snoc : forall A (l : list A) x, NoDup l -> ~ In x l -> NoDup (l ++ [x]).
Proof. intros A l x H1 H2. apply (NoDup_Add (a := x) (l := l)); [replace (x :: l) with ((x :: l)) by reflexivity; rewrite <- (app_nil_r l) at 1; apply Add_app|auto]. Qed.

Ltac snocs := repeat first [rewrite last_of_snoc|rewrite all_of_snoc|rewrite sections_snoc]; cbn [cutoff_of orbitals_of weights_of q_of_statement mass_of format_of ob_of tb_of target_of or_else].
Lemma map_last_same : forall A B (l : list (A * list B)), map_last (fun p => (fst p, snd p ++ [])) l = l.
Proof. intros A B l. destruct (snoc_cases _ l) as [->|(l' & [a b] & ->)]; [reflexivity|]. rewrite map_last_snoc. cbn. rewrite app_nil_r. reflexivity. Qed.
Ltac same_sections := cbn [all_of flat_map app ob_term_of term_of]; rewrite ?map_last_same; rewrite ?app_nil_r.
Ltac mean H := destruct H as [H1 H2 H3 H4 H5 H6 H7 H8 H9 H10 H11]; cbn [c_cutoff c_orbitals c_weights c_q c_mass c_format c_xforms c_ob c_tb c_targets] in *.
Ltac plain := constructor; cbn [c_cutoff c_orbitals c_weights c_q c_mass c_format c_xforms c_ob c_tb c_targets];
  [snocs..|]; snocs; same_sections; try assumption; try reflexivity; try (intros id0; rewrite first_of_snoc; cbn [xform_named]; match goal with H : forall id, assoc _ id = _ |- _ => rewrite <- H end; destruct (assoc _ id0); reflexivity); try congruence.
Theorem step_ok : forall c pre s, means c pre -> fits pre s -> exists c', act s c = Ok c' /\ means c' (pre ++ [s]).
Proof.
  intros [cut orbs w q A fmt xs ob tb tg] pre s M F. mean M. destruct s; cbn [act]; cbn [fits] in F.
  - eexists. split; [reflexivity|]. plain.
  - eexists. split; [reflexivity|]. plain. destruct tb0; reflexivity.
  - eexists. split; [reflexivity|]. plain.
  - eexists. split; [reflexivity|]. plain.
  - eexists. split; [reflexivity|]. plain.
  - eexists. split; [reflexivity|]. plain.
    + intros id0. rewrite first_of_snoc, <- H7. cbn [xform_named]. unfold add_xform. destruct (assoc xs id) eqn:E.
      * destruct (assoc xs id0) eqn:E0; [reflexivity|]. destruct (String.eqb_spec id id0); [congruence|reflexivity].
      * rewrite assoc_app. destruct (assoc xs id0) eqn:E0; [reflexivity|]. cbn. destruct (String.eqb_spec id0 id), (String.eqb_spec id id0); congruence.
    + unfold add_xform. destruct (assoc xs id) eqn:E; [assumption|]. rewrite map_app. apply nodup_snoc; [assumption|]. apply assoc_none_in. exact E.
  - eexists. split; [reflexivity|]. plain. rewrite map_app, H9. cbn. destruct s; cbn; rewrite ?app_nil_r; reflexivity.
  - destruct F as (i & ts & F). assert (S := sections_last ob_of ob_term_of pre). rewrite F in S. destruct S as (ps & its & S). rewrite S in H9.
    rewrite map_app in H9. cbn [map with_terms fst snd] in H9. rewrite H9. rewrite on_last_snoc. cbn [add_term bind].
    replace (nonempty (map with_terms ps ++ [OLinear i (ts ++ its)])) with true by (destruct (map with_terms ps); reflexivity). cbn [cassert bind].
    eexists. split; [reflexivity|]. plain. rewrite S, map_last_snoc, map_app. cbn. rewrite app_assoc. reflexivity.
  - eexists. split; [reflexivity|]. plain.
  - eexists. split; [reflexivity|]. plain.
  - apply target_in in F. assert (S := sections_last target_of term_of pre). destruct (last_of target_of pre) as [f|]; [|congruence]. destruct S as (ps & its & S). rewrite S in H11.
    rewrite H11. rewrite on_last_snoc. cbn [bind fst snd]. replace (nonempty (ps ++ [(f, its)])) with true by (destruct ps; reflexivity). cbn [cassert bind].
    eexists. split; [reflexivity|]. plain. rewrite S, map_last_snoc. reflexivity.
Qed.
Theorem step_inv : forall c pre s c', means c pre -> act s c = Ok c' -> fits pre s.
Proof.
  intros [cut orbs w q A fmt xs ob tb tg] pre s c' M H. mean M. destruct s; cbn [fits]; try exact I; cbn [act] in H.
  - assert (S := sections_last ob_of ob_term_of pre). destruct (last_of ob_of pre) as [o|].
    + destruct S as (ps & its & S). rewrite S, map_app in H9. cbn [map] in H9. rewrite H9, on_last_snoc in H.
      apply bind_inv in H. destruct H as (_ & _ & H). destruct o as [| |i ts| |]; try discriminate H. eauto.
    + rewrite S in H9. cbn in H9. rewrite H9 in H. discriminate.
  - apply target_in. intros E. assert (S := sections_last target_of term_of pre). rewrite E in S. rewrite S in H11. rewrite H11 in H. discriminate.
Qed.
(** what a statement that does not fit does *)
Theorem step_refused : forall c pre s, means c pre -> ~ fits pre s ->
  match s with AddOb _ _ => act s c = match last_of ob_of pre with None => AssertFail | Some _ => Exit end | _ => act s c = AssertFail end.
Proof.
  intros [cut orbs w q A fmt xs ob tb tg] pre s M F. mean M. destruct s; cbn [fits] in F; try (contradiction (F I)); cbn [act].
  - assert (S := sections_last ob_of ob_term_of pre). destruct (last_of ob_of pre) as [o|].
    + destruct S as (ps & its & S). rewrite S, map_app in H9. cbn [map] in H9. rewrite H9, on_last_snoc.
      replace (nonempty (map with_terms ps ++ [with_terms (o, its)])) with true by (destruct (map with_terms ps); reflexivity). cbn [cassert bind].
      destruct o as [| |i ts| |]; try reflexivity. exfalso. apply F. eauto.
    + rewrite S in H9. cbn in H9. rewrite H9. reflexivity.
  - assert (E : last_of target_of pre = None) by (destruct (last_of target_of pre) eqn:E; [exfalso; apply F, target_in; congruence|reflexivity]).
    assert (S := sections_last target_of term_of pre). rewrite E in S. rewrite S in H11. rewrite H11. reflexivity.
Qed.
Lemma read_snoc : forall lines line, read_control (lines ++ [line]) = bind (read_control lines) (fun c => read_line c line).
Proof. intros. unfold read_control. rewrite for_each_app. destruct (for_each lines _ control0); [|reflexivity..]. cbn. destruct (read_line _ line); reflexivity. Qed.
Lemma forall2_snoc : forall A B (P : A -> B -> Prop) l a m, Forall2 P (l ++ [a]) m -> exists m' b, m = m' ++ [b] /\ Forall2 P l m' /\ P a b.
Proof.
  intros A B P l a m H. apply Forall2_app_inv_l in H. destruct H as (m1 & m2 & H1 & H2 & ->). inversion H2 as [|x y l' l'' Hy Hn]; subst. inversion Hn; subst. eauto 6.
Qed.
Theorem control_ok : forall lines sts, Forall2 says lines sts -> placed sts -> exists c, read_control lines = Ok c /\ means c sts.
Proof.
  intros lines. induction lines as [|line lines IH] using rev_ind; intros sts H P.
  - inversion H; subst. exists control0. split; [reflexivity|exact means_nil].
  - apply forall2_snoc in H. destruct H as (sts' & s & -> & H & Hs). apply placed_snoc in P. destruct P as [P F].
    destruct (IH sts' H P) as (c & E & M). destruct (step_ok c sts' s M F) as (c' & E' & M'). exists c'. split; [|exact M'].
    rewrite read_snoc, E. cbn [bind]. rewrite (says_acts line s c Hs). exact E'.
Qed.
Theorem control_inv : forall lines c, read_control lines = Ok c -> exists sts, Forall2 says lines sts /\ placed sts /\ means c sts.
Proof.
  intros lines. induction lines as [|line lines IH] using rev_ind; intros c H.
  - injection H as <-. exists []. split; [constructor|]. split; [exact placed_nil|exact means_nil].
  - rewrite read_snoc in H. apply bind_inv in H. destruct H as (c0 & E & H). destruct (IH c0 E) as (sts & S & P & M).
    destruct (line_cases c0 line) as [[s Hs]|[L|[L _]]]; [|congruence..]. rewrite (says_acts line s c0 Hs) in H.
    exists (sts ++ [s]). assert (F := step_inv c0 sts s c M H). split; [apply Forall2_app; [exact S|constructor; [exact Hs|constructor]]|].
    split; [apply placed_snoc; split; assumption|]. destruct (step_ok c0 sts s M F) as (c' & E' & M'). congruence.
Qed.
Lemma read_app : forall l1 line l2 c, read_control l1 = Ok c -> (forall x, read_line c line <> Ok x) -> read_control (l1 ++ line :: l2) =
  match read_line c line with Ok _ => UB | Exit => Exit | AssertFail => AssertFail | UB => UB end.
Proof.
  intros l1 line l2 c H N. unfold read_control in *. rewrite for_each_app, H. cbn. destruct (read_line c line) as [x| | |] eqn:E; [contradiction (N x eq_refl)|reflexivity..].
Qed.
(** the first line that says nothing, or is misplaced, ends the program *)
Theorem control_refused : forall l1 line l2 sts, Forall2 says l1 sts -> placed sts -> (forall s, ~ says line s) ->
  read_control (l1 ++ line :: l2) = Exit
  \/ (read_control (l1 ++ line :: l2) = AssertFail /\ (keyword line "add-ob-source" /\ all_of ob_of sts = [] \/ keyword line "add-source" /\ all_of target_of sts = [])).
Proof.
  intros l1 line l2 sts S P N. destruct (control_ok l1 sts S P) as (c & E & M).
  destruct (line_cases c line) as [[s Hs]|[L|[L K]]]; [contradiction (N s Hs)| |].
  - left. rewrite (read_app l1 line l2 c E); [rewrite L; reflexivity|intros x; rewrite L; discriminate].
  - right. split; [rewrite (read_app l1 line l2 c E); [rewrite L; reflexivity|intros x; rewrite L; discriminate]|].
    destruct M as [_ _ _ _ _ _ _ _ M9 _ M11]. destruct K as [[K Ez]|[K Ez]]; [left|right]; (split; [exact K|]).
    + rewrite M9 in Ez. apply map_eq_nil in Ez. clear - Ez. induction sts as [|s sts IH]; [reflexivity|]. cbn in *. destruct (ob_of s); [discriminate|]. exact (IH Ez).
    + rewrite M11 in Ez. clear - Ez. induction sts as [|s sts IH]; [reflexivity|]. cbn in *. destruct (target_of s); [discriminate|]. exact (IH Ez).
Qed.
Theorem control_misplaced : forall l1 line l2 sts s, Forall2 says l1 sts -> placed sts -> says line s -> ~ placed (sts ++ [s]) ->
  match s with
  | AddOb _ _ => read_control (l1 ++ line :: l2) = match last_of ob_of sts with None => AssertFail | Some _ => Exit end
  | _ => read_control (l1 ++ line :: l2) = AssertFail
  end.
Proof.
  intros l1 line l2 sts s S P Hs N. destruct (control_ok l1 sts S P) as (c & E & M).
  assert (F : ~ fits sts s) by (intros F; apply N, placed_snoc; split; assumption).
  assert (R := step_refused c sts s M F). rewrite <- (says_acts line s c Hs) in R.
  assert (X : forall o : outcome control, o = read_line c line -> (forall x, o <> Ok x) -> o <> UB -> read_control (l1 ++ line :: l2) = o).
  { intros o -> No Nu. rewrite (read_app l1 line l2 c E No). destruct (read_line c line); [contradiction (No a eq_refl)|reflexivity|reflexivity|contradiction (Nu eq_refl)]. }
  destruct s; try (apply X; [congruence|discriminate..]). destruct (last_of ob_of sts); apply X; try congruence; discriminate.
Qed.
