(** Lemmas for C139-C142. *)
From Coq Require Import String List ZArith Reals Bool Lra Lia.
From Verif Require Import Base BaseLemmas RMat H2Model MapModel XformModel SepModel OscModel OscSpec OscProof BlockModel BlockSpec BlockProof BlockFinal
  ObioModel ObioProof ObioFinal ObioMore MixModel MixProof MixFinal ObmModel ObmSpec ObmProof ObmFinal ObmFin2 ObmFin3 ObmFin4 ObmFin5 ObmFin6 NatModel RgModel HmModel HmSpec HmOspec HmProof HmMeans HmOb
  StmtSpec StmtProof ObxProof EwgModel EwgSpec.
Import ListNotations.
Open Scope R_scope.
Open Scope string_scope.
Open Scope list_scope.
Open Scope outcome_scope.

Definition ewact (d : ewdisk) (s : ewstatement) (r : ewrun) : outcome ewrun :=
  let '(EwRun sp b ra am iso ts) := r in
  match s with
  | Comment => Ok r
  | Orbitals file => os <- open_file (ew_orbitals d file) ;; Ok (EwRun (forget (mk_wspace os)) b ra am iso ts)
  | Scale x => Ok (EwRun sp (Some x) ra am iso ts)
  | Radial t power file => f <- load d file ;; Ok (EwRun sp b (insert_new label_eqb (t, power) f ra) am iso ts)
  | Momentum t file => f <- load d file ;; Ok (EwRun sp b ra (insert_new am_eqb t f am) iso ts)
  | Charge Tz0 file => f <- load d file ;; Ok (EwRun sp b ra am (insert_new Z.eqb Tz0 f iso) ts)
  | Wanted t => Ok (EwRun sp b ra am iso (ts ++ [t]))
  end.
Lemma named_in : forall A (table : list (string * A)) i x, NoDup (map fst table) -> (In (i, x) table <-> named table i = Ok x).
Proof.
  intros A table i x N. unfold named. induction table as [|[j y] table IH]; [split; [intros []|discriminate]|]. cbn [assoc In map fst] in *. inversion N as [|? ? N1 N2]; subst. destruct (String.eqb_spec i j) as [->|E].
  - split; [intros [H|H]; [injection H as ->; reflexivity|exfalso; apply N1; apply in_map_iff; exists (j, x); auto]|intros H; injection H as ->; left; reflexivity].
  - rewrite <- (IH N2). split; [intros [H|H]; [congruence|exact H]|auto].
Qed.
Ltac nodup := cbn [map fst]; repeat (constructor; [intros G; cbn [In] in G; repeat (destruct G as [G|G]; [discriminate G|]); exact G|]); constructor.
Ltac ewsays_eq := unfold ew_line, next_text, next_i, next_d; cbn [bind]; do 6 (reads; cbn [bind String.eqb Ascii.eqb Bool.eqb Datatypes.orb]).
Theorem ewsays_acts : forall d line s r, ewsays line s -> ew_line d r line = ewact d s r.
Proof.
  intros d line s [sp b ra am iso ts] H. destruct H; [reflexivity|destruct H as [H|H]; unfold ew_line; rewrite H; reflexivity|..]; ewsays_eq; try reflexivity;
    repeat match goal with G : In (w_text _, _) ?table |- _ => apply (proj1 (named_in _ table _ _ ltac:(nodup))) in G; unfold radial_names, ew_am_names, ew_isospin_names, em_names, species_names, weak_names; rewrite G; cbn [bind] end; reflexivity.
Qed.
Ltac ecrack := repeat first [discriminate|right; reflexivity|match goal with
  | |- context [match ?l with [] => _ | _ :: _ => _ end] => is_var l; destruct l as [|? ?]; cbn [bind]
  | |- context [w_int ?w] => let E := fresh "E" in destruct (w_int w) eqn:E; cbn [bind]
  | |- context [w_num ?w] => let E := fresh "E" in destruct (w_num w) eqn:E; cbn [bind]
  | |- context [named ?t ?i] => let E := fresh "N" in let x := fresh "x" in destruct (named_cases _ t i) as [[x E]|E]; rewrite E; cbn [bind] end].
Ltac nm := match goal with G : named _ _ = Ok _ |- In _ _ => eapply (named_in _ _ _ _); [nodup|exact G] end.
Theorem ewline_cases : forall d r line, (exists s, ewsays line s) \/ ew_line d r line = Exit.
Proof.
  intros d [sp b ra am iso ts] [|k l]; [left; eexists; constructor|]. unfold ew_line, next_text, next_i, next_d.
  destruct (String.eqb_spec (w_text k) ""); [left; eexists; apply ew_comment; auto|]. destruct (String.eqb_spec (w_text k) "#"); [left; eexists; apply ew_comment; auto|]. cbn [Datatypes.orb].
  destruct (String.eqb_spec (w_text k) "set-indexing"). { destruct l as [|f l]; [right; reflexivity|]. left. eexists. apply ew_indexing. assumption. }
  destruct (String.eqb_spec (w_text k) "set-basis-scale-factor"). { ecrack. left. eexists. eapply ew_factor; eassumption. }
  destruct (String.eqb_spec (w_text k) "define-radial-source"). { ecrack. left. eexists. eapply ew_radial_source; [assumption|nm|eassumption]. }
  destruct (String.eqb_spec (w_text k) "define-am-source"). { ecrack. left. eexists. eapply ew_am_source; [assumption|nm]. }
  destruct (String.eqb_spec (w_text k) "define-isospin-source"). { ecrack. left. eexists. eapply ew_isospin_source; [assumption|nm]. }
  destruct (String.eqb_spec (w_text k) "define-em-target").
  { ecrack. left. eexists. eapply ew_em_target; [assumption| |eassumption|]; [eapply (named_in _ em_names); [nodup|eassumption]|eapply (named_in _ species_names); [nodup|eassumption]]. }
  destruct (String.eqb_spec (w_text k) "define-weak-target"). { ecrack. left. eexists. eapply ew_weak_target; [assumption|nm]. }
  right. reflexivity.
Qed.
Theorem ewsays_one : forall line s t, ewsays line s -> ewsays line t -> s = t.
Proof.
  assert (U : forall A (table : list (string * A)) i x y, NoDup (map fst table) -> In (i, x) table -> In (i, y) table -> x = y) by (intros A table i x y N H1 H2; apply named_in in H1; [|exact N]; apply named_in in H2; [|exact N]; congruence).
  intros line s t H H'. destruct H; inversion H'; subst; try congruence; try (exfalso; match goal with G : _ \/ _ |- _ => destruct G; congruence end);
    repeat match goal with A : In (?i, ?x) ?l, B : In (?i, ?y) ?l |- _ => rewrite <- (U _ l i x y ltac:(nodup) A B) in *; clear B end; congruence.
Qed.
Lemma load_good : forall d file f, load d file = Ok f <-> good_file d file f.
Proof.
  intros d file f. unfold load, good_file, ew_load. destruct (ew_elements d file) as [[g sph]|]; [|split; [discriminate|intros [H _]; discriminate]].
  destruct (lspace_eqb (of_bra g) (of_ket g)) eqn:E; cbn [negb].
  - apply lspace_eqb_true in E. destruct sph; cbn [negb]; split; intros H; try discriminate; [injection H as ->; auto|destruct H as [H _]; congruence|destruct H; discriminate].
  - split; [discriminate|]. intros [H1 H2]. injection H1 as -> ->. rewrite H2, lspace_eqb_refl in E. discriminate.
Qed.
Lemma load_cases : forall d file, (exists f, load d file = Ok f) \/ load d file = Exit.
Proof. intros d file. unfold load, ew_load. destruct (ew_elements d file) as [[g sph]|]; [|auto]. destruct (negb (lspace_eqb _ _)); [auto|]. destruct (negb sph); eauto. Qed.
Lemma find_insert : forall K (eqb : K -> K -> bool), (forall x y, eqb x y = true <-> x = y) -> forall k f l n,
  find_op eqb (insert_new eqb k f l) n = match find_op eqb l n with Some x => Some x | None => if eqb k n then Some f else None end.
Proof.
  intros K eqb He k f l n. unfold insert_new, find_op. destruct (existsb (fun p => eqb k (fst p)) l) eqn:E.
  - destruct (find (fun p => eqb (fst p) n) l) as [p|] eqn:Ef; [reflexivity|]. cbn. destruct (eqb k n) eqn:Ek; [|reflexivity]. exfalso. apply He in Ek. subst. apply existsb_exists in E. destruct E as (p & Hp & E). apply He in E. subst.
    apply (find_none _ _ Ef) in Hp. cbn in Hp. rewrite (proj2 (He _ _) eq_refl) in Hp. discriminate.
  - clear E. induction l as [|p l IH]; cbn; [destruct (eqb k n); reflexivity|]. destruct (eqb (fst p) n); [reflexivity|exact IH].
Qed.
Lemma find_kind_r : forall l n, find_op Z.eqb (of_kind_r l) n = find_op label_eqb l (TR, n).
Proof.
  unfold find_op, of_kind_r. induction l as [|[[t p] f] l IH]; intros n; [reflexivity|]. cbn [filter fst]. unfold label_eqb at 1. cbn [fst snd find]. destruct t; cbn [rtype_eqb andb map find fst snd option_map]; try exact (IH n).
  cbn [filter]. destruct (p =? n)%Z; [reflexivity|exact (IH n)].
Qed.
Lemma rtype_eqb_eq : forall a b, rtype_eqb a b = true <-> a = b.
Proof. intros [] []; split; intros H; try reflexivity; discriminate. Qed.
Lemma label_eqb_eq : forall a b, label_eqb a b = true <-> a = b.
Proof. intros [a m] [b n]. unfold label_eqb. cbn. rewrite andb_true_iff, rtype_eqb_eq, Z.eqb_eq. split; [intros [-> ->]; reflexivity|intros H; injection H as -> ->; auto]. Qed.
Lemma am_eqb_eq : forall a b, am_eqb a b = true <-> a = b.
Proof. intros [] []; split; intros H; try reflexivity; discriminate. Qed.
Lemma ewmeans_nil : forall d, ewmeans d ewrun0 [].
Proof. intros d. constructor; reflexivity. Qed.
Lemma source_snoc : forall d (g : ewstatement -> option string) sts s, (forall x, g s = Some x -> exists f, good_file d x f) -> Forall (readable d) sts ->
  (forall t x, g t = Some x -> readable d t -> exists f, good_file d x f) ->
  source_file d (the_first g (sts ++ [s])) = match source_file d (the_first g sts) with Some x => Some x | None => source_file d (g s) end.
Proof.
  intros d g sts s Hs F Hg. rewrite the_first_snoc. destruct (the_first g sts) as [x|] eqn:E; [|reflexivity].
  assert (G : exists f, good_file d x f). { clear Hs. induction sts as [|t sts IH]; [discriminate|]. inversion F; subst. cbn in E. destruct (g t) eqn:Et; [injection E as ->; eauto|auto]. }
  destruct G as (f & G & _). cbn. rewrite G. reflexivity.
Qed.
Theorem ewstep : forall d r pre s, ewmeans d r pre -> Forall (readable d) pre -> readable d s -> exists r', ewact d s r = Ok r' /\ ewmeans d r' (pre ++ [s]).
Proof.
  intros d [sp b ra am iso ts] pre s [M1 M2 M3 M4 M5 M6] F Hs. cbn [ew_space ew_scale ew_radial ew_am ew_iso ew_targets] in *.
  assert (Gr : forall n t x, power_of n t = Some x -> readable d t -> exists f, good_file d x f) by (intros n [] y H G; try discriminate; cbn in *; destruct t; try discriminate; destruct (Z.eq_dec power n); [injection H as <-; exact G|discriminate]).
  assert (Ga : forall n t x, momentum_of n t = Some x -> readable d t -> exists f, good_file d x f) by (intros n [] y H G; try discriminate; cbn in *; destruct t; try discriminate; destruct n; try discriminate; injection H as <-; exact G).
  assert (Gc : forall n t x, charge_of n t = Some x -> readable d t -> exists f, good_file d x f) by (intros n [] y H G; try discriminate; cbn in *; destruct (Z.eq_dec Tz0 n); [injection H as <-; exact G|discriminate]).
  assert (Sr : forall n, radial_op d (pre ++ [s]) n = match radial_op d pre n with Some x => Some x | None => source_file d (power_of n s) end) by (intros n; apply source_snoc; [intros x H; exact (Gr n s x H Hs)|exact F|exact (Gr n)]).
  assert (Sa : forall n, am_op d (pre ++ [s]) n = match am_op d pre n with Some x => Some x | None => source_file d (momentum_of n s) end) by (intros n; apply source_snoc; [intros x H; exact (Ga n s x H Hs)|exact F|exact (Ga n)]).
  assert (Sc : forall n, charge_op d (pre ++ [s]) n = match charge_op d pre n with Some x => Some x | None => source_file d (charge_of n s) end) by (intros n; apply source_snoc; [intros x H; exact (Gc n s x H Hs)|exact F|exact (Gc n)]).
  assert (Id : forall o : option obfile, match o with Some x => Some x | None => None end = o) by (intros []; reflexivity).
  destruct s; cbn [ewact readable] in *.
  all: try (match goal with H : exists x, good_file _ _ x |- _ => destruct H as (x & Hx); assert (Lx := proj2 (load_good _ _ _) Hx); rewrite Lx; destruct Hx as (Hx & _) end; cbn [bind]).
  all: try (destruct (ew_orbitals d file) as [os|] eqn:Eo; [|contradiction (Hs eq_refl)]; cbn [open_file bind]).
  all: eexists; split; [reflexivity|]; constructor; cbn [ew_space ew_scale ew_radial ew_am ew_iso ew_targets];
    [unfold ew_run_space; rewrite the_last_snoc; cbn [orbitals_of]; try exact M1; try (rewrite Eo; reflexivity)|rewrite the_last_snoc; cbn [scale_of]; try exact M2; try reflexivity|intros n; rewrite Sr, <- M3; cbn [power_of source_file]; try (symmetry; apply Id)
    |intros n; rewrite Sa, <- M4; cbn [momentum_of source_file]; try (symmetry; apply Id)|intros n; rewrite Sc, <- M5; cbn [charge_of source_file]; try (symmetry; apply Id)|rewrite every_snoc; cbn [wanted]; rewrite M6, ?app_nil_r; reflexivity].
  - rewrite !find_kind_r, (find_insert _ _ label_eqb_eq). destruct (find_op label_eqb ra (TR, n)); [reflexivity|]. unfold label_eqb. cbn [fst snd]. destruct t; cbn [rtype_eqb andb source_file]; try reflexivity.
    destruct (Z.eqb_spec power n), (Z.eq_dec power n); try contradiction; cbn [source_file]; [rewrite Hx; reflexivity|reflexivity].
  - rewrite (find_insert _ _ am_eqb_eq). destruct (find_op am_eqb am (if n then ASpin else AOrbital)); [reflexivity|]. destruct t, n; cbn; rewrite ?Hx; reflexivity.
  - rewrite (find_insert _ _ Z.eqb_eq). destruct (find_op Z.eqb iso n); [reflexivity|]. destruct (Z.eqb_spec Tz0 n), (Z.eq_dec Tz0 n); try contradiction; cbn [source_file]; [rewrite Hx; reflexivity|reflexivity].
Qed.
Lemma ewact_refused : forall d s r, ~ readable d s -> ewact d s r = Exit.
Proof.
  intros d s [sp b ra am iso ts] H. destruct s; cbn in *; try (contradiction (H I)).
  - destruct (ew_orbitals d file); [exfalso; apply H; discriminate|reflexivity].
  - destruct (load_cases d file) as [[f E]|E]; [exfalso; apply H; exists f; apply load_good; exact E|rewrite E; reflexivity].
  - destruct (load_cases d file) as [[f E]|E]; [exfalso; apply H; exists f; apply load_good; exact E|rewrite E; reflexivity].
  - destruct (load_cases d file) as [[f E]|E]; [exfalso; apply H; exists f; apply load_good; exact E|rewrite E; reflexivity].
Qed.
Lemma readable_dec : forall d s, readable d s \/ ~ readable d s.
Proof.
  intros d s. destruct s; cbn; try (left; exact I).
  - destruct (ew_orbitals d file); [left; discriminate|right; intros H; apply H; reflexivity].
  - destruct (load_cases d file) as [[f E]|E]; [left; exists f; apply load_good; exact E|right; intros (f & G); apply load_good in G; congruence].
  - destruct (load_cases d file) as [[f E]|E]; [left; exists f; apply load_good; exact E|right; intros (f & G); apply load_good in G; congruence].
  - destruct (load_cases d file) as [[f E]|E]; [left; exists f; apply load_good; exact E|right; intros (f & G); apply load_good in G; congruence].
Qed.
Theorem ewcontrol_ok : forall d lines sts, Forall2 ewsays lines sts -> Forall (readable d) sts -> exists r, ew_lines d lines = Ok r /\ ewmeans d r sts.
Proof.
  intros d lines. unfold ew_lines. induction lines as [|line lines IH] using rev_ind; intros sts H P.
  - inversion H; subst. exists ewrun0. split; [reflexivity|apply ewmeans_nil].
  - apply forall2_snoc in H. destruct H as (sts' & s & -> & H & Hs). apply Forall_app in P. destruct P as [P F]. inversion F; subst. destruct (IH sts' H P) as (r & E & M).
    rewrite for_each_app, E. cbn [for_each bind]. destruct (ewstep d r sts' s M P) as (r' & E' & M'); [assumption|]. exists r'. split; [rewrite (ewsays_acts d line s r Hs), E'; reflexivity|exact M'].
Qed.
Theorem ewcontrol_refused : forall d l1 line l2 sts, Forall2 ewsays l1 sts -> Forall (readable d) sts -> (forall s, ewsays line s -> ~ readable d s) ->
  ew_lines d (l1 ++ line :: l2) = Exit.
Proof.
  intros d l1 line l2 sts H P N. destruct (ewcontrol_ok d l1 sts H P) as (r & E & M). unfold ew_lines in *. rewrite for_each_app, E. cbn [for_each bind]. destruct (ewline_cases d r line) as [[s Hs]|R]; [|rewrite R; reflexivity].
  rewrite (ewsays_acts d line s r Hs), (ewact_refused d s r (N s Hs)). reflexivity.
Qed.
Theorem ewcontrol_inv : forall d lines r, ew_lines d lines = Ok r -> exists sts, Forall2 ewsays lines sts /\ Forall (readable d) sts /\ ewmeans d r sts.
Proof.
  intros d lines. induction lines as [|line lines IH] using rev_ind; intros r H.
  - injection H as <-. exists []. split; [constructor|]. split; [constructor|apply ewmeans_nil].
  - assert (H0 := H). unfold ew_lines in H. rewrite for_each_app in H. apply bind_inv in H. destruct H as (r0 & E & H). destruct (IH r0 E) as (sts & S & P & M). cbn [for_each] in H. apply bind_inv in H. destruct H as (r1 & H & H1). injection H1 as <-.
    destruct (ewline_cases d r0 line) as [[s Hs]|R]; [|congruence]. rewrite (ewsays_acts d line s r0 Hs) in H. destruct (readable_dec d s) as [Hr|Hr]; [|rewrite (ewact_refused d s r0 Hr) in H; discriminate].
    destruct (ewstep d r0 sts s M P Hr) as (r' & E' & M'). rewrite E' in H. injection H as ->. exists (sts ++ [s]). split; [apply Forall2_app; [exact S|constructor; [exact Hs|constructor]]|]. split; [apply Forall_app; split; [exact P|constructor; [exact Hr|constructor]]|exact M'].
Qed.
