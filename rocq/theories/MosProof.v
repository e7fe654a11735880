(** C142-C145: proofs. *)
From Coq Require Import String List ZArith Reals Bool Lia Lra.
From Verif Require Import Base BaseLemmas RMat OscModel OscFinal BlockModel BlockProof MapModel ObioModel ObioMore MixModel MixSpec MixProof MoshModel JpvModel IsoModel IsoSpec IsoProof TrfModel TrfSpec TrfProof TrfFinal RgModel MosModel MosSpec.
Import ListNotations.
Open Scope Z_scope.
Open Scope outcome_scope.

(** * Input *)
Lemma text_at_line : forall ls n k s, text_at ls n k s <-> exists w, nth_error (line_of ls n) k = Some w /\ w_text w = s.
Proof.
  intros ls n k s. unfold text_at, line_of. split.
  - intros (l & w & H1 & H2 & H3). exists w. rewrite (nth_error_nth _ _ _ H1). auto.
  - intros (w & H1 & H2). destruct (nth_error ls n) as [l|] eqn:E.
    + rewrite (nth_error_nth _ _ _ E) in H1. exists l, w. auto.
    + rewrite nth_overflow in H1 by (apply nth_error_None; exact E). destruct k; discriminate.
Qed.
Lemma number_at_line : forall ls n k z, number_at ls n k z <-> exists w, nth_error (line_of ls n) k = Some w /\ w_int w = Some z.
Proof.
  intros ls n k s. unfold number_at, line_of. split.
  - intros (l & w & H1 & H2 & H3). exists w. rewrite (nth_error_nth _ _ _ H1). auto.
  - intros (w & H1 & H2). destruct (nth_error ls n) as [l|] eqn:E.
    + rewrite (nth_error_nth _ _ _ E) in H1. exists l, w. auto.
    + rewrite nth_overflow in H1 by (apply nth_error_None; exact E). destruct k; discriminate.
Qed.
Lemma named_rank : forall s r, named ranks s = Ok r <-> s = rank_name r.
Proof.
  intros s r. unfold named, ranks. cbn -[String.eqb]. split.
  - repeat match goal with |- context[String.eqb ?a ?b] => destruct (String.eqb_spec a b); [subst; intros [= <-]; reflexivity|] end. discriminate.
  - intros ->. destruct r; reflexivity.
Qed.
Lemma named_coupling : forall s c, named couplings s = Ok c <-> s = coupling_name c.
Proof.
  intros s r. unfold named, couplings. cbn -[String.eqb]. split.
  - repeat match goal with |- context[String.eqb ?a ?b] => destruct (String.eqb_spec a b); [subst; intros [= <-]; reflexivity|] end. discriminate.
  - intros ->. destruct r; reflexivity.
Qed.
Lemma named_or : forall {A} (t : list (string * A)) s, (exists x, named t s = Ok x) \/ named t s = Exit.
Proof. intros A t s. unfold named. destruct (assoc t s); eauto. Qed.
Lemma named_rank_none : forall s, named ranks s = Exit -> forall r, s <> rank_name r.
Proof. intros s H r E. apply named_rank in E. congruence. Qed.
Lemma named_coupling_none : forall s, named couplings s = Exit -> forall r, s <> coupling_name r.
Proof. intros s H r E. apply named_coupling in E. congruence. Qed.
Ltac bad := right; split; [reflexivity|]; intros p (T1 & N1 & T2 & T3 & T4 & T5 & T6 & T7); rewrite ?text_at_line, ?number_at_line in *.
Ltac use H E := let w := fresh "w" in let A := fresh "A" in let B := fresh "B" in destruct H as (w & A & B); rewrite ?E in A; cbn in A; try discriminate; try (injection A as <-); try congruence.
Lemma mos_read_cases : forall none ls, (exists p, mos_read none ls = Ok p /\ input_means none ls p) \/ (mos_read none ls = Exit /\ forall p, ~ input_means none ls p).
Proof.
  intros none ls. unfold mos_read.
  destruct (line_of ls 0) as [|a l1] eqn:E1; cbn [next_text bind]. { bad. use T1 E1. }
  destruct l1 as [|b l1]; cbn [next_i bind]. { bad. use N1 E1. }
  destruct (w_int b) as [cutoff|] eqn:Eb; cbn [bind]. 2:{ bad. use N1 E1. }
  destruct (named_or ranks (w_text a)) as [[r Er]|Er]; rewrite Er; cbn [bind]. 2:{ bad. use T1 E1. apply (named_rank_none _ Er) in B. contradiction. }
  destruct (line_of ls 1) as [|c l2] eqn:E2; cbn [next_text bind]. { bad. use T2 E2. }
  destruct l2 as [|d l2]; cbn [next_text bind]. { bad. use T3 E2. }
  destruct (named_or couplings (w_text d)) as [[from Ef]|Ef]; rewrite Ef; cbn [bind]. 2:{ bad. use T3 E2. apply (named_coupling_none _ Ef) in B. contradiction. }
  destruct (line_of ls 2) as [|e l3] eqn:E3; cbn [next_text bind]. { bad. use T4 E3. }
  destruct l3 as [|f l3]; cbn [next_text bind]. { bad. use T5 E3. }
  destruct (named_or couplings (w_text f)) as [[to Et]|Et]; rewrite Et; cbn [bind]. 2:{ bad. use T5 E3. apply (named_coupling_none _ Et) in B. contradiction. }
  assert (K : forall format Tz0, (to = KJjjpn -> number_at ls 2 2 format /\ number_at ls 2 3 Tz0) -> (to <> KJjjpn -> format = none /\ Tz0 = 0) ->
     input_means none ls (MParams r cutoff (w_text c) from (w_text e) to format Tz0)).
  { intros format Tz0 H1 H2. apply named_rank in Er. apply named_coupling in Ef, Et. unfold input_means. cbn [m_rank m_cutoff m_source m_from m_target m_to m_format m_Tz0].
    rewrite ?text_at_line, ?number_at_line, E1, E2, E3 in *. cbn [nth_error]. repeat split; eauto; try (apply H1; assumption); try (apply H2; assumption). }
  assert (D : to = KJjjpn \/ to <> KJjjpn) by (destruct to; (left; reflexivity) || (right; discriminate)).
  destruct D as [->|D].
  - destruct l3 as [|g l3]; cbn [next_i bind]. { bad. assert (m_to p = KJjjpn) as Hp by (use T5 E3; apply named_coupling in B; congruence). destruct (T6 Hp) as [H _]. try rewrite number_at_line in H. use H E3. }
    destruct (w_int g) as [format|] eqn:Eg; cbn [bind]. 2:{ bad. assert (m_to p = KJjjpn) as Hp by (use T5 E3; apply named_coupling in B; congruence). destruct (T6 Hp) as [H _]. try rewrite number_at_line in H. use H E3. }
    destruct l3 as [|h l3]; cbn [next_i bind]. { bad. assert (m_to p = KJjjpn) as Hp by (use T5 E3; apply named_coupling in B; congruence). destruct (T6 Hp) as [_ H]. try rewrite number_at_line in H. use H E3. }
    destruct (w_int h) as [Tz0|] eqn:Eh; cbn [bind]. 2:{ bad. assert (m_to p = KJjjpn) as Hp by (use T5 E3; apply named_coupling in B; congruence). destruct (T6 Hp) as [_ H]. try rewrite number_at_line in H. use H E3. }
    left. eexists. split; [reflexivity|]. apply K; [|congruence]. intros _. rewrite !number_at_line, E3. cbn [nth_error]. split; eauto.
  - left. exists (MParams r cutoff (w_text c) from (w_text e) to none 0). split; [destruct to; congruence|]. apply K; [congruence|auto].
Qed.
Lemma text_at_inj : forall ls n k s t, text_at ls n k s -> text_at ls n k t -> s = t.
Proof. intros ls n k s t (l & w & A & B & C) (l' & w' & A' & B' & C'). congruence. Qed.
Lemma number_at_inj : forall ls n k s t, number_at ls n k s -> number_at ls n k t -> s = t.
Proof. intros ls n k s t (l & w & A & B & C) (l' & w' & A' & B' & C'). congruence. Qed.
Lemma input_unique : forall none ls p p', input_means none ls p -> input_means none ls p' -> p = p'.
Proof.
  intros none ls [r n s f t c m z] [r' n' s' f' t' c' m' z'] (A1 & A2 & A3 & A4 & A5 & A6 & A7 & A8) (B1 & B2 & B3 & B4 & B5 & B6 & B7 & B8).
  cbn [m_rank m_cutoff m_source m_from m_target m_to m_format m_Tz0] in *.
  pose proof (text_at_inj _ _ _ _ _ A1 B1) as E1. assert (r = r') as <- by (destruct r, r'; cbn in E1; congruence).
  pose proof (number_at_inj _ _ _ _ _ A2 B2) as <-. pose proof (text_at_inj _ _ _ _ _ A3 B3) as <-. pose proof (text_at_inj _ _ _ _ _ A5 B5) as <-.
  pose proof (text_at_inj _ _ _ _ _ A4 B4) as E4. assert (f = f') as <- by (destruct f, f'; cbn in E4; congruence).
  pose proof (text_at_inj _ _ _ _ _ A6 B6) as E6. assert (c = c') as <- by (destruct c, c'; cbn in E6; congruence).
  assert (D : c = KJjjpn \/ c <> KJjjpn) by (destruct c; (left; reflexivity) || (right; discriminate)). destruct D as [D|D].
  - destruct (A7 D) as [X1 X2]. destruct (B7 D) as [Y1 Y2]. pose proof (number_at_inj _ _ _ _ _ X1 Y1) as <-. pose proof (number_at_inj _ _ _ _ _ X2 Y2) as <-. reflexivity.
  - destruct (A8 D) as [-> ->]. destruct (B8 D) as [-> ->]. reflexivity.
Qed.
Lemma mos_read_iff : forall none ls p, mos_read none ls = Ok p <-> input_means none ls p.
Proof.
  intros none ls p. destruct (mos_read_cases none ls) as [(q & E & M)|[E M]]; rewrite E; split.
  - intros [= <-]. exact M.
  - intros H. f_equal. apply (input_unique _ _ _ _ M H).
  - discriminate.
  - intros H. destruct (M p H).
Qed.
Lemma mos_read_refuses : forall none ls, (forall p, ~ input_means none ls p) -> mos_read none ls = Exit.
Proof. intros none ls H. destruct (mos_read_cases none ls) as [(q & _ & M)|[E _]]; [destruct (H q M)|exact E]. Qed.

(** * Which transformations are carried out *)
Section Run.
Variable u6jz : Z -> Z -> Z -> Z -> Z -> Z -> R.
Variable racah1 : Z -> Z -> Z -> Z -> Z -> Z -> Z -> R.
Variable u9j : Z -> Z -> Z -> Z -> Z -> Z -> Z -> R.
Variable mosh : Z -> Z -> Z -> Z -> Z -> Z -> Z -> Z -> Z -> R.
Variable flip : Z -> Z -> Z -> Z -> Z -> R.
Variable tol : R.
Variable B : basislib.

Lemma run_impossible : forall p, ~ In (m_from p, m_to p) possible -> mos_run u6jz racah1 u9j mosh flip tol B p = Exit.
Proof.
  intros p H. unfold mos_run, ls_stage, jj_stage, relcm_stage.
  destruct (m_from p) eqn:Ef, (m_to p) eqn:Et; cbn; try reflexivity; exfalso; apply H; cbn; auto 10.
Qed.
Lemma ordering_known : forall format x, ordering_of format = Ok x -> In format [0; 15099; 15200].
Proof.
  intros format x. unfold ordering_of. destruct (find (fun x => fst x =? format) orderings) as [y|] eqn:E; [|discriminate]. intros _. apply find_some in E. destruct E as [E1 E2].
  apply Z.eqb_eq in E2. subst. unfold orderings in E1. cbn in E1. cbn [In]. intuition (subst; cbn; auto).
Qed.
Lemma ordering_unknown : forall format, ~ In format [0; 15099; 15200] -> ordering_of format = Exit.
Proof.
  intros format H. unfold ordering_of. destruct (find (fun x => fst x =? format) orderings) as [y|] eqn:E; [|reflexivity]. destruct H. apply (ordering_known format (snd y)). unfold ordering_of. rewrite E. reflexivity.
Qed.
Lemma pn_stage_form : forall p o sp c w, pn_stage flip tol B p o sp c = Ok w -> exists bs, w = Some (m_target p, FH2 (m_format p) bs) /\ In (m_format p) [0; 15099; 15200] /\ can_write B (m_target p) = true.
Proof.
  intros p o sp c w H. unfold pn_stage in H. apply bind_inv in H. destruct H as (ord & Eo & H). unfold check in H. destruct (can_write B (m_target p)); cbn [bind] in H; [|discriminate].
  apply bind_inv in H. destruct H as (bs & _ & [= <-]). exists bs. split; [reflexivity|]. split; [|reflexivity]. exact (ordering_known _ _ Eo).
Qed.
Lemma jj_stage_form : forall p o tb c w, (m_to p = KJjjt \/ m_to p = KJjjpn) -> jj_stage u9j flip tol B p o tb c = Ok w ->
  (w = None /\ m_to p = KJjjt /\ can_write B (m_target p) = false) \/ exists f, w = Some (m_target p, f) /\ in_coupling (m_to p) (m_format p) f /\ can_write B (m_target p) = true.
Proof.
  intros p o tb c w Ht H. unfold jj_stage in H.
  assert (H' : exists cj ct, (match m_to p with KJjjt => diagnostics o ct ;;; Ok (if can_write B (m_target p) then Some (m_target p, FJjjt o ct) else None) | _ => pn_stage flip tol B p o (jt_of B (m_rank p) (m_cutoff p)) ct end) = Ok w
     /\ to_jjjt u9j flip o tb c (jj_of B (m_rank p) (m_cutoff p)) = Ok cj).
  { destruct (m_from p); try discriminate; apply bind_inv in H; destruct H as (cj & E & H); apply bind_inv in H; destruct H as (ct & E' & H); exists cj, ct; auto. }
  clear H. destruct H' as (cj & ct & H & _). destruct Ht as [Ht|Ht]; rewrite Ht in H.
  - apply bind_inv in H. destruct H as (_ & _ & H). destruct (can_write B (m_target p)) eqn:E; injection H as <-; [right|left; auto]. exists (FJjjt o ct). rewrite Ht. cbn. auto.
  - right. destruct (pn_stage_form _ _ _ _ _ H) as (bs & -> & K & W). exists (FH2 (m_format p) bs). rewrite Ht. split; [reflexivity|]. split; [|exact W]. cbn [in_coupling]. auto.
Qed.
Lemma ls_stage_form : forall p o cm c w, (m_to p = KLsjt \/ m_to p = KJjjt \/ m_to p = KJjjpn) -> (m_from p = KRel \/ m_from p = KRelcm) -> ls_stage u9j mosh flip tol B p o cm c = Ok w ->
  (w = None /\ (m_to p = KLsjt \/ m_to p = KJjjt) /\ can_write B (m_target p) = false) \/ exists f, w = Some (m_target p, f) /\ in_coupling (m_to p) (m_format p) f /\ can_write B (m_target p) = true.
Proof.
  intros p o cm c w Ht Hf H. unfold ls_stage in H.
  assert (H' : exists ct, (match m_to p with KLsjt => g <- gather_ls B o (tb_of B (m_rank p) (m_cutoff p)) ct (m_rank p) (m_cutoff p) ;; diagnostics o g ;;; Ok (if can_write B (m_target p) then Some (m_target p, FLsjt o g) else None)
     | _ => jj_stage u9j flip tol B p o (tb_of B (m_rank p) (m_cutoff p)) ct end) = Ok w).
  { destruct Hf as [Hf|Hf]; rewrite Hf in H; apply bind_inv in H; destruct H as (ct & E & H); apply bind_inv in H; destruct H as (_ & _ & H); exists ct; exact H. }
  clear H. destruct H' as (ct & H). destruct Ht as [Ht|Ht].
  - rewrite Ht in H. apply bind_inv in H. destruct H as (g & _ & H). apply bind_inv in H. destruct H as (_ & _ & H). destruct (can_write B (m_target p)) eqn:E; injection H as <-; [right|left; auto].
    exists (FLsjt o g). rewrite Ht. cbn. auto.
  - assert (H2 : jj_stage u9j flip tol B p o (tb_of B (m_rank p) (m_cutoff p)) ct = Ok w) by (destruct Ht as [Ht|Ht]; rewrite Ht in H; exact H).
    destruct (jj_stage_form _ _ _ _ _ Ht H2) as [(-> & E & W)|K]; [left; auto|right; exact K].
Qed.
Lemma run_form : forall p w, mos_run u6jz racah1 u9j mosh flip tol B p = Ok w ->
  In (m_from p, m_to p) possible /\
  ((w = None /\ (m_to p = KLsjt \/ m_to p = KJjjt) /\ can_write B (m_target p) = false)
   \/ exists f, w = Some (m_target p, f) /\ in_coupling (m_to p) (m_format p) f /\ can_write B (m_target p) = true).
Proof.
  intros p w H. assert (P : In (m_from p, m_to p) possible).
  { destruct (in_dec (ltac:(repeat decide equality) : forall x y : coupling * coupling, {x = y} + {x <> y}) (m_from p, m_to p) possible) as [P|P]; [exact P|]. rewrite (run_impossible p P) in H. discriminate. }
  split; [exact P|]. unfold mos_run in H. apply bind_inv in H. destruct H as (_ & _ & H). apply bind_inv in H. destruct H as (_ & _ & H). apply bind_inv in H. destruct H as ([[o cm] c] & E & H).
  apply bind_inv in H. destruct H as (_ & _ & H).
  assert (D : m_to p = KRelcm \/ (m_to p = KLsjt \/ m_to p = KJjjt \/ m_to p = KJjjpn)).
  { cbn in P. destruct (m_to p); auto; intuition discriminate. }
  assert (F : m_from p = KRel \/ m_from p = KRelcm) by (cbn in P; destruct (m_from p); auto; intuition discriminate).
  destruct D as [D|D].
  - rewrite D in H. apply bind_inv in H. destruct H as (g & _ & H). unfold check in H. destruct (can_write B (m_target p)) eqn:W; cbn [bind] in H; [|discriminate]. injection H as <-.
    right. exists (FRelcm o g). rewrite D. cbn. auto.
  - apply (ls_stage_form p o cm c w D F). destruct D as [D|[D|D]]; rewrite D in H; exact H.
Qed.

(** ** the source *)
Lemma run_source : forall p w, mos_run u6jz racah1 u9j mosh flip tol B p = Ok w ->
  (m_from p = KRel /\ exists r, read_rel B (m_source p) = Ok r) \/ (m_from p = KRelcm /\ exists r, read_cm B (m_source p) = Ok r).
Proof.
  intros p w H. destruct (run_form p w H) as [P _]. unfold mos_run in H. apply bind_inv in H. destruct H as (_ & _ & H). apply bind_inv in H. destruct H as (_ & _ & H). apply bind_inv in H. destruct H as (r & E & _).
  unfold relcm_stage in E. cbn in P. destruct (m_from p); try (intuition discriminate); apply bind_inv in E; destruct E as (x & E & _); eauto.
Qed.
End Run.
