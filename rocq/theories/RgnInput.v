(** Input of the programs for relative operators: proofs. *)
From Coq Require Import String List ZArith Reals Bool Lia.
From Verif Require Import Base BaseLemmas RMat OscModel OscSpec BlockModel MixProof MoshModel JpvModel JpvSpec IsoModel IsoSpec TrfModel TrfSpec RmeModel RmeSpec WfModel LenModel LenSpec LenProof RelxModel RelxSpec RgModel MosModel MosSpec MosProof RgnModel RgnSpec.
Import ListNotations.
Open Scope Z_scope.
Open Scope outcome_scope.

Lemma bind_iff : forall {A B} (m : outcome A) (f : A -> outcome B) y, bind m f = Ok y <-> exists x, m = Ok x /\ f x = Ok y.
Proof. intros A B m f y. split; [apply bind_inv|]. intros (x & -> & H). exact H. Qed.
Lemma real_at_line : forall ls n k x, real_at ls n k x <-> exists w, nth_error (input_line ls n) k = Some w /\ w_num w = Some x.
Proof.
  intros ls n k s. unfold real_at, input_line. split.
  - intros (l & w & H1 & H2 & H3). exists w. rewrite (nth_error_nth _ _ _ H1). auto.
  - intros (w & H1 & H2). destruct (nth_error ls n) as [l|] eqn:E.
    + rewrite (nth_error_nth _ _ _ E) in H1. exists l, w. auto.
    + rewrite nth_overflow in H1 by (apply nth_error_None; exact E). destruct k; discriminate.
Qed.
Lemma skipn_S : forall {A} k (l : list A), skipn (S k) l = match skipn k l with [] => [] | _ :: r => r end.
Proof.
  intros A k. induction k as [|k IH]; intros l.
  - destruct l; reflexivity.
  - destruct l as [|a l]; [reflexivity|]. cbn [skipn]. rewrite <- IH. reflexivity.
Qed.
Lemma nth_skip : forall {A} k (l : list A), nth_error l k = match skipn k l with [] => None | a :: _ => Some a end.
Proof. intros A k. induction k as [|k IH]; intros [|a l]; try reflexivity. cbn [nth_error skipn]. apply IH. Qed.
Lemma next_i_at : forall ls n k z r, next_i (skipn k (input_line ls n)) = Ok (z, r) <-> number_at ls n k z /\ r = skipn (S k) (input_line ls n).
Proof.
  intros ls n k z r. rewrite number_at_line. change (line_of ls n) with (input_line ls n). rewrite skipn_S, nth_skip. destruct (skipn k (input_line ls n)) as [|w l]; cbn [next_i].
  - split; [discriminate|]. intros [(w & H & _) _]. discriminate.
  - destruct (w_int w) as [z'|] eqn:E; split.
    + intros [= <- <-]. split; [exists w; auto|reflexivity].
    + intros [(w' & [= <-] & H) ->]. congruence.
    + discriminate.
    + intros [(w' & [= <-] & H) _]. congruence.
Qed.
Lemma next_d_at : forall ls n k z r, next_d (skipn k (input_line ls n)) = Ok (z, r) <-> real_at ls n k z /\ r = skipn (S k) (input_line ls n).
Proof.
  intros ls n k z r. rewrite real_at_line. rewrite skipn_S, nth_skip. destruct (skipn k (input_line ls n)) as [|w l]; cbn [next_d].
  - split; [discriminate|]. intros [(w & H & _) _]. discriminate.
  - destruct (w_num w) as [z'|] eqn:E; split.
    + intros [= <- <-]. split; [exists w; auto|reflexivity].
    + intros [(w' & [= <-] & H) ->]. congruence.
    + discriminate.
    + intros [(w' & [= <-] & H) _]. congruence.
Qed.
Lemma next_text_at : forall ls n k z r, next_text (skipn k (input_line ls n)) = Ok (z, r) <-> text_at ls n k z /\ r = skipn (S k) (input_line ls n).
Proof.
  intros ls n k z r. rewrite text_at_line. change (line_of ls n) with (input_line ls n). rewrite skipn_S, nth_skip. destruct (skipn k (input_line ls n)) as [|w l]; cbn [next_text].
  - split; [discriminate|]. intros [(w & H & _) _]. discriminate.
  - split.
    + intros [= <- <-]. split; [exists w; auto|reflexivity].
    + intros [(w' & [= <-] & H) ->]. congruence.
Qed.
(** forwards: what was read is there; backwards: what is there is read *)
Ltac there := repeat match goal with
  | H : bind _ _ = Ok _ |- _ => apply bind_inv in H; let x := fresh "x" in let E := fresh "E" in destruct H as (x & E & H)
  | x : (_ * _)%type |- _ => destruct x
  | H : next_i (skipn _ (input_line _ _)) = Ok _ |- _ => apply next_i_at in H; destruct H as [? ->]
  | H : next_d (skipn _ (input_line _ _)) = Ok _ |- _ => apply next_d_at in H; destruct H as [? ->]
  | H : next_text (skipn _ (input_line _ _)) = Ok _ |- _ => apply next_text_at in H; destruct H as [? ->]
  end.
Ltac reads := repeat (match goal with
  | H : number_at ?ls ?n ?k ?z |- context[next_i (skipn ?k (input_line ?ls ?n))] => rewrite (proj2 (next_i_at ls n k z _) (conj H eq_refl))
  | H : real_at ?ls ?n ?k ?z |- context[next_d (skipn ?k (input_line ?ls ?n))] => rewrite (proj2 (next_d_at ls n k z _) (conj H eq_refl))
  | H : text_at ?ls ?n ?k ?z |- context[next_text (skipn ?k (input_line ?ls ?n))] => rewrite (proj2 (next_text_at ls n k z _) (conj H eq_refl))
  end; cbn [bind]).
Definition line0 (ls : list (list word)) (n : nat) : input_line ls n = skipn 0 (input_line ls n) := eq_refl.
Ltac zeros ls := try rewrite (line0 ls 0); try rewrite (line0 ls 1); try rewrite (line0 ls 2); try rewrite (line0 ls 3).
Ltac zero_in ls H := try rewrite (line0 ls 0) in H; try rewrite (line0 ls 1) in H; try rewrite (line0 ls 2) in H; try rewrite (line0 ls 3) in H.

Lemma read_labels_iff : forall ls o, read_labels (input_line ls 0) = Ok o <-> labels_mean ls o.
Proof.
  intros ls o. unfold read_labels, labels_mean. rewrite (line0 ls 0). split.
  - intros H. there. injection H as <-. cbn [o_J0 o_g0 o_T0_min o_T0_max]. auto.
  - intros (H1 & H2 & H3 & H4). reads. destruct o; reflexivity.
Qed.
Lemma in_names_iff : forall name l, in_names name l = true <-> In name l.
Proof.
  intros name l. unfold in_names. rewrite existsb_exists. split.
  - intros (x & H & E). apply String.eqb_eq in E. congruence.
  - intros H. exists name. split; [exact H|apply String.eqb_refl].
Qed.
Lemma in_names_false : forall name l, in_names name l = false <-> ~ In name l.
Proof. intros name l. rewrite <- in_names_iff. destruct (in_names name l); split; congruence. Qed.
Lemma named_coordinate : forall s ct, named coordinates s = Ok ct <-> s = coordinate_name ct.
Proof.
  intros s r. unfold named, coordinates. cbn -[String.eqb]. split.
  - repeat match goal with |- context[String.eqb ?a ?b] => destruct (String.eqb_spec a b); [subst; intros [= <-]; reflexivity|] end. discriminate.
  - intros ->. destruct r; reflexivity.
Qed.
Lemma named_species : forall s t, named species_types s = Ok t <-> s = species_name t.
Proof.
  intros s r. unfold named, species_types. cbn -[String.eqb]. split.
  - repeat match goal with |- context[String.eqb ?a ?b] => destruct (String.eqb_spec a b); [subst; intros [= <-]; reflexivity|] end. discriminate.
  - intros ->. destruct r; reflexivity.
Qed.
Lemma daejeon_Jmax : forall d which N, (if d && String.eqb which "Daejeon16"%string then Z.min (N + 1) 6 else N + 1) = Jmax_of d N (AInteraction which).
Proof. intros d which N. unfold Jmax_of. destruct (String.eqb which "Daejeon16"%string), d; reflexivity. Qed.
Lemma read_args_iff : forall d ls name N a J, read_args d name (N + 1) (skipn 1 (input_line ls 2)) = Ok (a, J) <-> args_mean ls name a /\ J = Jmax_of d N a.
Proof.
  intros d ls name N a J. unfold read_args.
  destruct (in_names name ["orbital-am"; "spin-am"]%string) eqn:E1.
  { apply in_names_iff in E1. split.
    - intros H. there. injection H as <- <-. split; [split; [exact E1|assumption]|reflexivity].
    - intros [H ->]. destruct a; cbn [args_mean] in H.
      + destruct H. cbn in E1 |- *. intuition.
      + destruct H as [_ H]. reads. reflexivity.
      + destruct H as [H _]. cbn in E1, H. exfalso. intuition congruence.
      + destruct H as [H _]. cbn in E1. exfalso. intuition congruence.
      + destruct H as [H _]. cbn in E1. exfalso. intuition congruence.
      + destruct H as [H _]. cbn in E1. exfalso. intuition congruence.
      + destruct H as [H _]. cbn in E1. exfalso. intuition congruence. }
  apply in_names_false in E1.
  destruct (in_names name ["coordinate-sqr"; "dipole"; "quadrupole"]%string) eqn:E2.
  { apply in_names_iff in E2. split.
    - intros H. there. injection H as <- <-. apply named_coordinate in E3. subst. split; [split; [exact E2|split; assumption]|reflexivity].
    - intros [H ->]. destruct a; cbn [args_mean] in H.
      + destruct H. cbn in E2 |- *. intuition.
      + destruct H as [H _]. contradiction.
      + destruct H as (_ & H1 & H2). reads. rewrite (proj2 (named_coordinate _ _) eq_refl). reflexivity.
      + destruct H as [H _]. cbn in E2. exfalso. intuition congruence.
      + destruct H as [H _]. cbn in E2. exfalso. intuition congruence.
      + destruct H as [H _]. cbn in E2. exfalso. intuition congruence.
      + destruct H as [H _]. cbn in E2. exfalso. intuition congruence. }
  apply in_names_false in E2.
  destruct (String.eqb_spec name "coulomb"%string) as [->|E3].
  { split.
    - intros H. there. injection H as <- <-. match goal with H : named _ _ = Ok _ |- _ => apply named_species in H; subst end. split; [split; [reflexivity|split; assumption]|reflexivity].
    - intros [H ->]. destruct a; cbn [args_mean] in H; try (destruct H as [H _]; (discriminate || contradiction)).
      + destruct H. cbn. intuition.
      + destruct H as (_ & H1 & H2). reads. rewrite (proj2 (named_species _ _) eq_refl). reflexivity. }
  destruct (String.eqb_spec name "symmunit"%string) as [->|E4].
  { split.
    - intros H. there. injection H as <- <-. split; [split; [reflexivity|]|reflexivity]. cbn [u_T0 u_Np u_Lp u_Sp u_Jp u_Tp u_N u_L u_S u_J u_T]. repeat (split; [assumption|]). assumption.
    - intros [H ->]. destruct a; cbn [args_mean] in H; try (destruct H as [H _]; (discriminate || contradiction)).
      + destruct H. cbn. intuition.
      + destruct H as (_ & H1 & H2 & H3 & H4 & H5 & H6 & H7 & H8 & H9 & H10 & H11). reads. destruct u; reflexivity. }
  destruct (String.eqb_spec name "interaction"%string) as [->|E5].
  { split.
    - intros H. there. rewrite daejeon_Jmax in H. injection H as <- <-. split; [split; [reflexivity|assumption]|reflexivity].
    - intros [H ->]. destruct a; cbn [args_mean] in H; try (destruct H as [H _]; (discriminate || contradiction)).
      + destruct H. cbn. intuition.
      + destruct H as (_ & H1). reads. rewrite daejeon_Jmax. reflexivity. }
  destruct (String.eqb_spec name "LENPIC-N2LOGT"%string) as [->|E6].
  { split.
    - intros H. there. injection H as <- <-. split; [split; [reflexivity|repeat (split; [assumption|]); assumption]|reflexivity].
    - intros [H ->]. destruct a; cbn [args_mean] in H; try (destruct H as [H _]; (discriminate || contradiction)).
      + destruct H. cbn. intuition.
      + destruct H as (_ & H1 & H2 & H3). reads. reflexivity. }
  split.
  - intros [= <- <-]. split; [|reflexivity]. cbn in E1, E2 |- *. intuition congruence.
  - intros [H ->]. destruct a; cbn [args_mean] in H; try (destruct H as [H _]; (congruence || contradiction)). reflexivity.
Qed.
Theorem gen_read_iff : forall d ls p, gen_read d ls = Ok p <-> gen_input d ls p.
Proof.
  intros d ls p. unfold gen_read, gen_input. split.
  - intros H. apply bind_inv in H. destruct H as (o & Eo & H). apply read_labels_iff in Eo. zero_in ls H. there.
    apply read_args_iff in E1. destruct E1 as [Ea ->]. injection H as <-. cbn [g_o g_Nmax g_Jmax g_name g_args g_target]. auto 9.
  - intros (Ho & HN & Hn & Ha & HJ & Ht). apply read_labels_iff in Ho. rewrite Ho. cbn [bind]. zeros ls. reads.
    rewrite (proj2 (read_args_iff d ls (g_name p) (g_Nmax p) (g_args p) (g_Jmax p)) (conj Ha HJ)). cbn [bind]. reads. destruct p; reflexivity.
Qed.

(** a reader of input ends with what it read or ends the program *)
Definition ends {A} (m : outcome A) : Prop := (exists x, m = Ok x) \/ m = Exit.
Lemma ends_bind : forall {A B} (m : outcome A) (f : A -> outcome B), ends m -> (forall x, ends (f x)) -> ends (bind m f).
Proof. intros A B m f [[x ->]| ->] H; cbn [bind]; [apply H|right; reflexivity]. Qed.
Lemma ends_ok : forall {A} (x : A), ends (Ok x). Proof. intros. left. eauto. Qed.
Lemma ends_text : forall l, ends (next_text l). Proof. intros [|w l]; cbn; [right; reflexivity|apply ends_ok]. Qed.
Lemma ends_i : forall l, ends (next_i l). Proof. intros [|w l]; cbn; [right; reflexivity|destruct (w_int w); [apply ends_ok|right; reflexivity]]. Qed.
Lemma ends_d : forall l, ends (next_d l). Proof. intros [|w l]; cbn; [right; reflexivity|destruct (w_num w); [apply ends_ok|right; reflexivity]]. Qed.
Lemma ends_named : forall {A} (t : list (string * A)) s, ends (named t s). Proof. intros. unfold named. destruct (MixModel.assoc t s); [apply ends_ok|right; reflexivity]. Qed.
Lemma ends_check : forall b, ends (check b). Proof. intros []; [apply ends_ok|right; reflexivity]. Qed.
Ltac ending := repeat match goal with
  | |- ends (bind _ _) => apply ends_bind
  | |- forall _, ends _ => let x := fresh in intros x
  | |- ends (let '(_, _) := ?x in _) => destruct x
  | |- ends (match ?x with pair _ _ => _ end) => destruct x
  | |- ends (if ?b then _ else _) => destruct b
  | |- ends (Ok _) => apply ends_ok
  | |- ends (next_text _) => apply ends_text
  | |- ends (next_i _) => apply ends_i
  | |- ends (next_d _) => apply ends_d
  | |- ends (named _ _) => apply ends_named
  | |- ends (check _) => apply ends_check
  end.
Lemma gen_read_ends : forall d ls, ends (gen_read d ls).
Proof. intros. unfold gen_read, read_labels, read_args. ending. Qed.
Theorem gen_read_refuses : forall d ls, (forall p, ~ gen_input d ls p) -> gen_read d ls = Exit.
Proof. intros d ls H. destruct (gen_read_ends d ls) as [[p E]|E]; [|exact E]. apply gen_read_iff in E. destruct (H p E). Qed.

(** relcm-gen *)
Theorem cm_read_iff : forall ls p, cm_read ls = Ok p <-> cm_input ls p.
Proof.
  intros ls p. unfold cm_read, cm_input. split.
  - intros H. apply bind_inv in H. destruct H as (o & Eo & H). apply read_labels_iff in Eo. zero_in ls H. there.
    injection H as <-. cbn [c_o c_Nmax c_name c_args c_target]. split; [exact Eo|]. split; [assumption|]. split; [assumption|]. split; [assumption|].
    destruct (String.eqb_spec s "LENPIC-NLOM1"%string) as [->|Hn].
    + there. injection E1 as <-. auto.
    + injection E1 as <-. exact Hn.
  - intros (Ho & HN & Hn & Ht & Ha). apply read_labels_iff in Ho. rewrite Ho. cbn [bind]. zeros ls. reads.
    destruct p as [o N name args target]. cbn [c_o c_Nmax c_name c_args c_target] in *. destruct args as [[[reg b] steps]|].
    + destruct Ha as (-> & H1 & H2 & H3). change (String.eqb "LENPIC-NLOM1"%string "LENPIC-NLOM1"%string) with true. cbv iota. reads. reflexivity.
    + apply String.eqb_neq in Ha. rewrite Ha. cbn [bind]. reads. reflexivity.
Qed.
Theorem cm_read_refuses : forall ls, (forall p, ~ cm_input ls p) -> cm_read ls = Exit.
Proof.
  intros ls H. assert (E : ends (cm_read ls)) by (unfold cm_read, read_labels; ending). destruct E as [[p E]|E]; [|exact E]. apply cm_read_iff in E. destruct (H p E).
Qed.

(** relative-xform *)
Theorem xf_read_iff : forall ex ls p, xf_read ex ls = Ok p <-> xf_input ex ls p.
Proof.
  intros ex ls p. unfold xf_read, xf_input. zeros ls. split.
  - intros H. there. unfold check in E0. destruct (ex s) eqn:Es; [|discriminate]. injection H as <-. cbn [x_source x_Nmax x_ratio x_steps x_target]. auto 7.
  - intros (H1 & H2 & H3 & H4 & H5 & H6). reads. rewrite H2. cbn [check bind]. reads. destruct p; reflexivity.
Qed.
Theorem xf_read_refuses : forall ex ls, (forall p, ~ xf_input ex ls p) -> xf_read ex ls = Exit.
Proof.
  intros ex ls H. assert (E : ends (xf_read ex ls)) by (unfold xf_read; ending). destruct E as [[p E]|E]; [|exact E]. apply xf_read_iff in E. destruct (H p E).
Qed.

(** jpv2rel *)
Theorem jpv_read_iff : forall ls p, jpv_read ls = Ok p <-> jpv_input ls p.
Proof.
  intros ls p. unfold jpv_read, jpv_input. zeros ls. split.
  - intros H. there. injection H as <-. cbn [j_Nmax j_Jmax j_T0_max j_sources j_target]. repeat (split; [assumption|]).
    unfold check in E2. destruct (Z.eqb_spec z1 0) as [->|N0]; cbn [orb] in E2.
    + there. injection E3 as <-. left. eauto.
    + destruct (Z.eqb_spec z1 2) as [->|N2]; [|discriminate]. there. injection E3 as <-. right. split; [reflexivity|]. eauto 8.
  - intros (H1 & H2 & H3 & H4 & H5). reads. destruct p as [N J T s t]. cbn [j_Nmax j_Jmax j_T0_max j_sources j_target] in *. destruct H5 as [[-> (f & -> & Hf)]|[-> (pp & nn & pn & -> & Ha & Hb & Hc)]].
    + cbn [Z.eqb orb check bind]. reads. reflexivity.
    + cbn [Z.eqb orb check bind Pos.eqb]. reads. reflexivity.
Qed.
Theorem jpv_read_refuses : forall ls, (forall p, ~ jpv_input ls p) -> jpv_read ls = Exit.
Proof.
  intros ls H. assert (E : ends (jpv_read ls)) by (unfold jpv_read; ending). destruct E as [[p E]|E]; [|exact E]. apply jpv_read_iff in E. destruct (H p E).
Qed.
