(** Lemmas for C126: the control file of h2mixer. *)
From Coq Require Import String List ZArith Reals Bool Lia.
From Verif Require Import Base BaseLemmas RMat H2Model MapModel XformModel SepModel OscModel BlockModel ObioModel ObioMore MixModel MixProof ObmModel NatModel RgModel HmModel HmSpec.
Import ListNotations.
Open Scope string_scope.
Open Scope list_scope.
Open Scope outcome_scope.

(** ** what a statement does *)
Definition act (s : statement) (c : control) : outcome control :=
  let '(Control cut orbs w q A fmt xs ob tb tg) := c in
  match s with
  | Indexing f w' => Ok (Control cut f (Some w') q A fmt xs ob tb tg)
  | Oscillator b N => Ok (Control N orbs (Some (oscillator_weights b N)) q A fmt xs ob tb tg)
  | Multipolarity q' => Ok (Control cut orbs w q' A fmt xs ob tb tg)
  | Mass A' => Ok (Control cut orbs w q (Some A') fmt xs ob tb tg)
  | Format fmt' => Ok (Control cut orbs w q A fmt' xs ob tb tg)
  | DefXform id file => Ok (Control cut orbs w q A fmt (add_xform xs id file) ob tb tg)
  | DefOb s => Ok (Control cut orbs w q A fmt xs (ob ++ [s]) tb tg)
  | AddOb id x => cassert (nonempty ob) ;;; ob' <- on_last (add_term (id, x)) ob ;; Ok (Control cut orbs w q A fmt xs ob' tb tg)
  | DefTb s => Ok (Control cut orbs w q A fmt xs ob (tb ++ [s]) tg)
  | DefTarget f => Ok (Control cut orbs w q A fmt xs ob tb (tg ++ [(f, [])]))
  | Add id x => cassert (nonempty tg) ;;; tg' <- on_last (fun t => Ok (fst t, snd t ++ [(id, x)])) tg ;; Ok (Control cut orbs w q A fmt xs ob tb tg')
  end.
Lemma builtin_in : forall id, In id builtin_names <-> exists x, named builtins id = Ok x.
Proof.
  intros id. unfold named. split.
  - intros H. cbn [builtin_names In] in H. repeat (destruct H as [<-|H]; [eexists; reflexivity|]). destruct H.
  - intros [x H]. unfold builtins, angular_momenta, isospins, ladders in H. cbn [app assoc] in H. cbn [builtin_names In].
    repeat match type of H with context [String.eqb id ?n] => destruct (String.eqb_spec id n); [subst; tauto|] end. discriminate.
Qed.
Ltac reads := repeat match goal with
  | H : w_text ?k = _ |- context [w_text ?k] => rewrite H
  | H : w_num ?k = _ |- context [w_num ?k] => rewrite H
  | H : w_int ?k = _ |- context [w_int ?k] => rewrite H
  end.
Ltac says_eq := unfold read_line, read_ob, read_tb, next_weights, next_q, next_text, next_i, next_d; cbn [cl_words cl_blank bind]; do 9 (reads; cbn [bind String.eqb Ascii.eqb Bool.eqb]).
Theorem says_acts : forall line s c, says line s -> read_line c line = act s c.
Proof.
  intros line s [cut orbs w q A fmt xs ob tb tg] H. destruct H; says_eq; try reflexivity.
  - match goal with H : w_text r = (if ?b then _ else _) |- _ => destruct b end; reads; reflexivity.
  - match goal with H : In _ builtin_names |- _ => apply builtin_in in H; destruct H as [x0 H]; rename H into E0 end.
    match goal with H : optional_text _ _ _ |- _ => destruct H end; cbn [optional bind]; rewrite E0; reflexivity.
  - match goal with H : optional_number _ _ _ |- _ => destruct H end; cbn [optional bind next_d]; reads; reflexivity.
  - match goal with H : In _ _ |- _ => destruct H as [<-|[<-|[]]] end; reflexivity.
  - match goal with H : optional_number _ _ _ |- _ => destruct H end; cbn [optional bind next_d]; reads; reflexivity.
Qed.
(** lines that say nothing end the program *)
Ltac found := left; eexists; (econstructor; (eassumption || reflexivity || (constructor; eassumption))).
Ltac crack := repeat (cbn [bind cl_words cl_blank]; first
  [ right; left; reflexivity
  | match goal with
    | |- context [match ?l with [] => Exit | _ :: _ => _ end] => is_var l; destruct l
    | |- context [w_num ?w] => destruct (w_num w) eqn:?
    | |- context [w_int ?w] => destruct (w_int w) eqn:?
    end ]).
Theorem line_cases : forall c line, (exists s, says line s) \/ read_line c line = Exit
  \/ (read_line c line = AssertFail /\ (keyword line "add-ob-source" /\ c_ob c = [] \/ keyword line "add-source" /\ c_targets c = [])).
Proof.
  intros [cut orbs w q A fmt xs ob tb tg] [[|k l] bl]; [right; left; reflexivity|]. unfold read_line, next_text, next_i, next_d. cbn [cl_words cl_blank bind].
  destruct (String.eqb_spec (w_text k) "set-target-indexing"). { unfold next_weights, next_d. crack. found. }
  destruct (String.eqb_spec (w_text k) "set-target-indexing-oscillator").
  { crack. destruct (String.eqb_spec (w_text w0) "ob"); [left; exists (Oscillator false z); constructor; assumption|].
    destruct (String.eqb_spec (w_text w0) "tb"); [left; exists (Oscillator true z); constructor; assumption|crack]. }
  destruct (String.eqb_spec (w_text k) "set-target-multipolarity"). { unfold next_q, next_i. crack. found. }
  destruct (String.eqb_spec (w_text k) "set-mass"). { crack. found. }
  destruct (String.eqb_spec (w_text k) "set-output-format"). { crack. left; eexists; apply say_format; eassumption. }
  destruct (String.eqb_spec (w_text k) "define-xform").
  { left. destruct l as [|i [|f r]]; eexists; [apply say_xform_nothing|apply say_xform_no_file|apply say_xform]; assumption. }
  destruct (String.eqb_spec (w_text k) "define-ob-source").
  { unfold read_ob. destruct l as [|w0 l]; [right; left; reflexivity|]. cbn [next_text bind].
    destruct (String.eqb_spec (w_text w0) "input"). { unfold next_q, next_text, next_i. crack. found. }
    destruct (String.eqb_spec (w_text w0) "builtin").
    { unfold next_text, next_i. crack. unfold optional. assert (B := builtin_in (w_text w1)). destruct l as [|w2 l].
      - destruct bl; [crack|]. cbn [bind]. destruct (named builtins (w_text w1)) as [x| | |] eqn:E; try (unfold named in E; destruct (assoc builtins (w_text w1)); discriminate).
        + left. eexists. eapply say_ob_builtin; try eassumption; [apply B; eexists; reflexivity|constructor].
        + crack.
      - cbn [bind]. destruct (named builtins (w_text w1)) as [x| | |] eqn:E; try (unfold named in E; destruct (assoc builtins (w_text w1)); discriminate).
        + left. eexists. eapply say_ob_builtin; try eassumption; [apply B; eexists; reflexivity|constructor].
        + crack. }
    destruct (String.eqb_spec (w_text w0) "linear-combination"). { unfold next_text. crack. left. eexists. eapply say_ob_linear; eassumption. }
    destruct (String.eqb_spec (w_text w0) "tensor-product").
    { unfold next_text, next_i. crack. unfold optional. destruct l as [|w5 l].
      - destruct bl; [crack|]. left. eexists. eapply say_ob_tensor; try eassumption. apply no_number.
      - unfold next_d. cbn [bind]. destruct (w_num w5) eqn:?; [|crack]. left. eexists. eapply say_ob_tensor; try eassumption. apply a_number. eassumption. }
    destruct (String.eqb_spec (w_text w0) "xform"). { unfold next_text. crack. left. eexists. eapply say_ob_xform; eassumption. }
    crack. }
  destruct (String.eqb_spec (w_text k) "add-ob-source").
  { destruct ob as [|o ob]; [right; right; split; [reflexivity|left; split; [eexists _, _; split; [reflexivity|assumption]|reflexivity]]|].
    cbn [nonempty cassert bind]. crack. left. eexists. eapply say_ob_add; eassumption. }
  destruct (String.eqb_spec (w_text k) "define-tb-source").
  { unfold read_tb. destruct l as [|w0 l]; [right; left; reflexivity|]. cbn [next_text bind].
    destruct (String.eqb_spec (w_text w0) "input"). { unfold next_text. crack. left. eexists. eapply say_tb_input; eassumption. }
    destruct (String.eqb_spec (w_text w0) "builtin").
    { unfold next_text. crack. cbn [bind]. destruct (String.eqb_spec (w_text w1) "identity"); [left; eexists; eapply say_tb_builtin; try eassumption; left; symmetry; assumption|].
      destruct (String.eqb_spec (w_text w1) "loop-test"); [left; eexists; eapply say_tb_builtin; try eassumption; right; left; symmetry; assumption|]. crack. }
    destruct (String.eqb_spec (w_text w0) "operatorU"). { unfold next_text. crack. left. eexists. eapply say_tb_U; eassumption. }
    destruct (String.eqb_spec (w_text w0) "operatorV").
    { unfold next_text, next_i. crack. unfold optional. destruct l as [|w4 l].
      - destruct bl; [crack|]. left. eexists. eapply say_tb_V; try eassumption. apply no_number.
      - unfold next_d. cbn [bind]. destruct (w_num w4) eqn:?; [|crack]. left. eexists. eapply say_tb_V; try eassumption. apply a_number. eassumption. }
    destruct (String.eqb_spec (w_text w0) "xform"). { unfold next_weights, next_text, next_d. crack. left. eexists. eapply say_tb_xform; eassumption. }
    crack. }
  destruct (String.eqb_spec (w_text k) "define-target"). { unfold next_text. crack. left. eexists. eapply say_target; eassumption. }
  destruct (String.eqb_spec (w_text k) "add-source").
  { destruct tg as [|o tg]; [right; right; split; [reflexivity|right; split; [eexists _, _; split; [reflexivity|assumption]|reflexivity]]|].
    cbn [nonempty cassert bind]. crack. left. eexists. eapply say_add; eassumption. }
  crack.
Qed.
(** a line says one thing *)
Lemma optional_text_one : forall l b x y, optional_text l b x -> optional_text l b y -> x = y.
Proof. intros l b x y H H'. inversion H; subst; inversion H'; reflexivity. Qed.
Lemma optional_number_one : forall l b x y, optional_number l b x -> optional_number l b y -> x = y.
Proof. intros l b x y H H'. inversion H; subst; inversion H'; congruence. Qed.
Theorem says_one : forall line s t, says line s -> says line t -> s = t.
Proof.
  intros line s t H H'. destruct H; inversion H'; subst; try congruence;
    try (match goal with A : optional_text _ _ ?x, B : optional_text _ _ ?y |- _ => rewrite (optional_text_one _ _ _ _ A B) end; reflexivity);
    try (match goal with A : optional_number _ _ ?x, B : optional_number _ _ ?y |- _ => rewrite (optional_number_one _ _ _ _ A B) end; congruence).
  repeat match goal with b : bool |- _ => destruct b end; congruence.
Qed.
