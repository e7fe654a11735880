(** Proofs for C120, C123: control file of radial-gen. *)
From Coq Require Import String List ZArith Reals Bool Lia.
From Verif Require Import Base BaseLemmas RMat H2Model MapModel OscModel BlockModel BlockSpec ObioModel MixModel ObmModel ObmSpec NatModel RgModel RgSpec.
Import ListNotations.
Open Scope R_scope.

Lemma assoc_in : forall A (t : list (string * A)) id x, NoDup (map fst t) -> (assoc t id = Some x <-> In (id, x) t).
Proof.
  intros A t id x. induction t as [|[y a] t IH]; intros Hn; cbn [assoc].
  - split; [discriminate|intros []].
  - cbn [map fst] in Hn. apply NoDup_cons_iff in Hn. destruct Hn as [Hy Hn]. destruct (String.eqb id y) eqn:E.
    + apply String.eqb_eq in E. subst y. split; [intros [= ->]; left; reflexivity|]. intros [[= ->]|H]; [reflexivity|]. destruct Hy. apply (in_map fst) in H. exact H.
    + apply String.eqb_neq in E. rewrite (IH Hn). split; [right; assumption|]. intros [[= <- _]|H]; [contradiction|exact H].
Qed.
Lemma named_in : forall A (t : list (string * A)) id x, NoDup (map fst t) -> (named t id = Ok x <-> In (id, x) t).
Proof.
  intros A t id x Hn. rewrite <- (assoc_in A t id x Hn). unfold named. destruct (assoc t id); split; congruence.
Qed.
Lemma named_cases : forall A (t : list (string * A)) id, (exists x, named t id = Ok x) \/ named t id = Exit.
Proof. intros. unfold named. destruct (assoc t id); eauto. Qed.
Ltac nodup_strings := cbn; repeat (apply NoDup_cons; [cbn; intuition discriminate|]); apply NoDup_nil.
Lemma kin_nodup : NoDup (map fst kinematic_names). Proof. nodup_strings. Qed.
Lemma am_nodup : NoDup (map fst am_names). Proof. nodup_strings. Qed.
Lemma iso_nodup : NoDup (map fst isospin_names). Proof. nodup_strings. Qed.
Lemma basis_nodup : NoDup (map fst basis_names). Proof. nodup_strings. Qed.
Lemma radial_nodup : NoDup (map fst radial_names). Proof. nodup_strings. Qed.

Lemma next_text_ok : forall l s r, next_text l = Ok (s, r) -> exists w, l = w :: r /\ s = w_text w.
Proof. intros [|w l] s r H; cbn in H; [discriminate|]. injection H as <- <-. eauto. Qed.
Lemma next_i_ok : forall l z r, next_i l = Ok (z, r) -> exists w, l = w :: r /\ w_int w = Some z.
Proof. intros [|w l] s r H; cbn in H; [discriminate|]. destruct (w_int w) eqn:E; [|discriminate]. injection H as <- <-. eauto. Qed.
Lemma next_d_ok : forall l z r, next_d l = Ok (z, r) -> exists w, l = w :: r /\ w_num w = Some z.
Proof. intros [|w l] s r H; cbn in H; [discriminate|]. destruct (w_num w) eqn:E; [|discriminate]. injection H as <- <-. eauto. Qed.
Lemma exists_ok : forall fs f u, exists_check fs f = Ok u -> fs f <> None.
Proof. intros fs f u H. unfold exists_check in H. destruct (fs f); congruence. Qed.
Lemma exists_intro : forall fs f, fs f <> None -> exists_check fs f = Ok tt.
Proof. intros fs f H. unfold exists_check. destruct (fs f); congruence. Qed.

Tactic Notation "step" ident(H) ident(x) ident(E) := apply bind_ok in H; destruct H as (x & E & H).

Lemma read_mode_ok : forall mode id l op r, read_mode mode id l = Ok (op, r) ->
  (exists o, op = Some o /\ In (mode, id, o) operator_table /\ r = l)
  \/ (exists t z w, mode = "solid-harmonic"%string /\ In (id, t) coordinates /\ l = w :: r /\ w_int w = Some z /\ op = Some (MSolid t, z, (z, Z.rem z 2, 0%Z)))
  \/ (~ In mode modes /\ op = None /\ r = l).
Proof.
  intros mode id l op r H. unfold read_mode in H.
  destruct (String.eqb_spec mode "kinematic") as [->|N1].
  { step H x E. destruct x as [[t order] J0]. injection H as <- <-. left. eexists. split; [reflexivity|]. split; [|reflexivity].
    apply (named_in _ _ _ _ kin_nodup) in E. cbn in E. repeat (destruct E as [E|E]; [injection E as <- <- <- <-; cbn; tauto|]). destruct E. }
  destruct (String.eqb_spec mode "solid-harmonic") as [->|N2].
  { step H x E. destruct x as [z l']. step H t E2. injection H as <- <-. right. left. destruct (next_i_ok _ _ _ E) as (w & -> & Hw).
    exists t, z, w. repeat split; auto. apply (named_in _ _ _ _ radial_nodup) in E2. exact E2. }
  destruct (String.eqb_spec mode "am") as [->|N3].
  { step H x E. destruct x as [[t order] J0]. injection H as <- <-. left. eexists. split; [reflexivity|]. split; [|reflexivity].
    apply (named_in _ _ _ _ am_nodup) in E. cbn in E. repeat (destruct E as [E|E]; [injection E as <- <- <- <-; cbn; tauto|]). destruct E. }
  destruct (String.eqb_spec mode "isospin") as [->|N4].
  { step H Tz0 E. injection H as <- <-. left. eexists. split; [reflexivity|]. split; [|reflexivity].
    apply (named_in _ _ _ _ iso_nodup) in E. cbn in E. repeat (destruct E as [E|E]; [injection E as <- <-; cbn; tauto|]). destruct E. }
  injection H as <- <-. right. right. split; [|auto]. cbn. intuition congruence.
Qed.
Lemma read_mode_table : forall mode id o l, In (mode, id, o) operator_table -> read_mode mode id l = Ok (Some o, l).
Proof.
  intros mode id o l H. unfold operator_table in H. cbn [In] in H. repeat (destruct H as [H|H]; [injection H as <- <- <-; reflexivity|]). destruct H.
Qed.
Lemma read_mode_solid : forall id t w z l, In (id, t) coordinates -> w_int w = Some z ->
  read_mode "solid-harmonic" id (w :: l) = Ok (Some (MSolid t, z, (z, Z.rem z 2, 0%Z)), l).
Proof.
  intros id t w z l H Hz. unfold read_mode. cbn [String.eqb Ascii.eqb Bool.eqb]. unfold next_i. rewrite Hz. cbn [bind].
  apply (named_in _ radial_names _ _ radial_nodup) in H. rewrite H. reflexivity.
Qed.
Lemma read_mode_other : forall mode id l, ~ In mode modes -> read_mode mode id l = Ok (None, l).
Proof.
  intros mode id l H. unfold read_mode. cbn in H.
  destruct (String.eqb_spec mode "kinematic") as [->|N1]; [tauto|]. destruct (String.eqb_spec mode "solid-harmonic") as [->|N2]; [tauto|].
  destruct (String.eqb_spec mode "am") as [->|N3]; [tauto|]. destruct (String.eqb_spec mode "isospin") as [->|N4]; [tauto|]. reflexivity.
Qed.

(** what a line does *)
Theorem line_takes : forall fs kb kf line st' ts, read_line fs (kb, kf) line = Ok (st', ts) <-> takes fs kb kf line st' ts.
Proof.
  intros fs kb kf line st' ts. split.
  - intros H. unfold read_line in H. step H x E. destruct x as [k l]. destruct (next_text_ok _ _ _ E) as (w & -> & ->). clear E.
    destruct (String.eqb_spec (w_text w) "set-ket-basis") as [Hk|N1].
    { step H x E1. destruct x as [b l1]. destruct (next_text_ok _ _ _ E1) as (w1 & -> & ->). step H x E2. destruct x as [f l2]. destruct (next_text_ok _ _ _ E2) as (w2 & -> & ->).
      step H bt E3. step H u E4. injection H as <- <-. apply takes_basis; [exact Hk| |exact (exists_ok _ _ _ E4)]. apply (named_in _ basis_names _ _ basis_nodup). exact E3. }
    destruct (String.eqb_spec (w_text w) "define-operator-target") as [Hk|N2].
    { step H x E1. destruct x as [mode l1]. destruct (next_text_ok _ _ _ E1) as (w1 & -> & ->). step H x E2. destruct x as [id l2]. destruct (next_text_ok _ _ _ E2) as (w2 & -> & ->).
      step H x E3. destruct x as [op l3]. step H x E4. destruct x as [out l4]. destruct (next_text_ok _ _ _ E4) as (w3 & -> & ->). injection H as <- <-.
      destruct (read_mode_ok _ _ _ _ _ E3) as [(o & -> & Ho & <-)|[(t & z & w4 & Hm & Ht & -> & Hz & ->)|(Hm & -> & <-)]].
      - apply takes_operator; assumption.
      - apply takes_solid; assumption.
      - apply takes_unknown_mode; assumption. }
    destruct (String.eqb_spec (w_text w) "define-radial-target") as [Hk|N3].
    { step H x E1. destruct x as [ty l1]. destruct (next_text_ok _ _ _ E1) as (w1 & -> & ->). step H x E2. destruct x as [order l2]. destruct (next_i_ok _ _ _ E2) as (w2 & -> & Z2).
      step H x E3. destruct x as [J0 l3]. destruct (next_i_ok _ _ _ E3) as (w3 & -> & Z3). step H x E4. destruct x as [g0 l4]. destruct (next_i_ok _ _ _ E4) as (w4 & -> & Z4).
      step H x E5. destruct x as [Tz0 l5]. destruct (next_i_ok _ _ _ E5) as (w5 & -> & Z5). step H x E6. destruct x as [out l6]. destruct (next_text_ok _ _ _ E6) as (w6 & -> & ->).
      step H t E7. injection H as <- <-. apply takes_radial; try assumption. apply (named_in _ radial_names _ _ radial_nodup). exact E7. }
    destruct (String.eqb_spec (w_text w) "define-xform-target") as [Hk|N4]; [|discriminate].
    step H x E1. destruct x as [c l1]. destruct (next_d_ok _ _ _ E1) as (w1 & -> & Z1). step H x E2. destruct x as [b l2]. destruct (next_text_ok _ _ _ E2) as (w2 & -> & ->).
    step H x E3. destruct x as [bf l3]. destruct (next_text_ok _ _ _ E3) as (w3 & -> & ->). step H x E4. destruct x as [out l4]. destruct (next_text_ok _ _ _ E4) as (w4 & -> & ->).
    step H bt E5. step H u E6. injection H as <- <-. apply takes_xform; try assumption; [|exact (exists_ok _ _ _ E6)]. apply (named_in _ basis_names _ _ basis_nodup). exact E5.
  - intros H. destruct H as [k w1 w2 rest bt Hk Hb Hf|k w1 w2 w3 rest op Hk Ho|k w1 w2 w3 w4 rest t z Hk Hm Ht Hz|k w1 w2 w3 rest Hk Hm
      |k w1 w2 w3 w4 w5 w6 rest t order J0 g0 Tz0 Hk Ht Z2 Z3 Z4 Z5|k w1 w2 w3 w4 rest c bt Hk Hc Hb Hf];
    unfold read_line; unfold next_text at 1; cbn [bind]; rewrite Hk; cbn [String.eqb Ascii.eqb Bool.eqb].
    + unfold next_text. cbn [bind]. apply (named_in _ basis_names _ _ basis_nodup) in Hb. rewrite Hb. cbn [bind]. rewrite (exists_intro _ _ Hf). reflexivity.
    + unfold next_text at 1 2. cbn [bind]. rewrite (read_mode_table _ _ _ _ Ho). reflexivity.
    + unfold next_text at 1 2. cbn [bind]. rewrite Hm, (read_mode_solid _ _ _ _ _ Ht Hz). reflexivity.
    + unfold next_text at 1 2. cbn [bind]. rewrite (read_mode_other _ _ _ Hm). reflexivity.
    + unfold next_text at 1, next_i. cbn [bind]. rewrite Z2. cbn [bind]. rewrite Z3. cbn [bind]. rewrite Z4. cbn [bind]. rewrite Z5. unfold next_text. cbn [bind].
      apply (named_in _ radial_names _ _ radial_nodup) in Ht. rewrite Ht. reflexivity.
    + unfold next_d. rewrite Hc. unfold next_text. cbn [bind]. apply (named_in _ basis_names _ _ basis_nodup) in Hb. rewrite Hb. cbn [bind]. rewrite (exists_intro _ _ Hf). reflexivity.
Qed.
Definition ends {A} (m : outcome A) : Prop := (exists a, m = Ok a) \/ m = Exit.
Lemma ends_bind : forall A B (m : outcome A) (k : A -> outcome B), ends m -> (forall a, ends (k a)) -> ends (bind m k).
Proof. intros A B m k [[a ->]| ->] H; [apply H|right; reflexivity]. Qed.
Lemma text_ends : forall l, ends (next_text l). Proof. intros [|w l]; [right; reflexivity|left; eexists; reflexivity]. Qed.
Lemma i_ends : forall l, ends (next_i l). Proof. intros [|w l]; [right; reflexivity|]. cbn. destruct (w_int w); [left; eexists; reflexivity|right; reflexivity]. Qed.
Lemma d_ends : forall l, ends (next_d l). Proof. intros [|w l]; [right; reflexivity|]. cbn. destruct (w_num w); [left; eexists; reflexivity|right; reflexivity]. Qed.
Lemma exists_ends : forall fs f, ends (exists_check fs f). Proof. intros fs f. unfold exists_check. destruct (fs f); [left; eexists; reflexivity|right; reflexivity]. Qed.
Lemma ok_ends : forall A (a : A), ends (Ok a). Proof. intros. left. eexists. reflexivity. Qed.
Lemma exit_ends : forall A, ends (@Exit A). Proof. intros. right. reflexivity. Qed.
Ltac ends_tac := repeat first
  [ apply ok_ends | apply exit_ends | apply text_ends | apply i_ends | apply d_ends | apply exists_ends | apply named_cases
  | match goal with |- ends (if ?b then _ else _) => destruct b | |- ends (let '(_, _) := ?p in _) => destruct p
    | |- ends (let (_, _) := ?p in _) => destruct p | |- ends (bind _ _) => apply ends_bind; [|intros ?] end ].
Lemma mode_ends : forall mode id l, ends (read_mode mode id l).
Proof. intros. unfold read_mode. ends_tac. Qed.
Theorem line_ends : forall fs kb kf line, (exists st' ts, takes fs kb kf line st' ts) \/ read_line fs (kb, kf) line = Exit.
Proof.
  intros fs kb kf line. assert (ends (read_line fs (kb, kf) line)) as [[[st' ts] E]|E].
  { unfold read_line. ends_tac. apply mode_ends. }
  - left. exists st', ts. apply line_takes. exact E.
  - right. exact E.
Qed.
Theorem lines_control : forall fs lines st ts, read_lines fs st lines = Ok ts <-> control fs st lines ts.
Proof.
  intros fs. induction lines as [|line lines IH]; intros st ts.
  - split; [intros [= <-]; constructor|]. intros H. inversion H. reflexivity.
  - destruct line as [|w line].
    + cbn [read_lines]. rewrite IH. split; [apply control_blank|]. intros H. inversion H as [| |kb kf ? ? ? ? ? Ht]; subst; [assumption|]. inversion Ht.
    + change (read_lines fs st ((w :: line) :: lines)) with ('(st', t) <- read_line fs st (w :: line);; ts <- read_lines fs st' lines;; Ok (t ++ ts))%outcome.
      split.
      * intros H. step H x E. destruct x as [st' t]. step H us E2. injection H as <-. destruct st as [kb kf]. apply (control_line _ kb kf _ st'); [apply line_takes; exact E|apply IH; exact E2].
      * intros H. inversion H as [| |kb kf ? st' t ? us Ht Hc]; subst. apply line_takes in Ht. rewrite Ht. cbn [bind]. apply IH in Hc. rewrite Hc. reflexivity.
Qed.
Theorem lines_end : forall fs lines st, (exists ts, control fs st lines ts) \/ read_lines fs st lines = Exit.
Proof.
  intros fs lines st. assert (ends (read_lines fs st lines)) as [[ts E]|E]; [|left; exists ts; apply lines_control; exact E|right; exact E].
  revert st. induction lines as [|line lines IH]; intros st; [left; eexists; reflexivity|]. destruct line as [|w line]; [apply IH|].
  change (ends ('(st', t) <- read_line fs st (w :: line);; ts <- read_lines fs st' lines;; Ok (t ++ ts))%outcome). apply ends_bind.
  - destruct st as [kb kf]. destruct (line_ends fs kb kf (w :: line)) as [(st' & ts & H)|H]; [|rewrite H; right; reflexivity]. apply line_takes in H. rewrite H. left. eexists. reflexivity.
  - intros [st' t]. apply ends_bind; [apply IH|]. intros us. apply ok_ends.
Qed.
