(** obscalc-ob as a program. *)
From Coq Require Import String List ZArith Reals Bool Lra Lia.
From Verif Require Import Base RMat H2Model MapModel OscModel BlockModel BlockSpec BlockProof ObioModel ObioSpec ObioProof ObioFinal ObioMore MixModel MixProof ObmModel NatModel RgModel HmModel ObsModel ObsSpec ObsProof ObsSum.
Import ListNotations.
Open Scope R_scope.

(** ** Twice a number, without its fraction *)
Lemma to_int_twice : forall x k, to_int (2 * x) = k <-> twice x k.
Proof.
  intros x k. unfold to_int, twice. destruct (Rle_dec 0 (2 * x)) as [H|H].
  - destruct (base_Int_part (2 * x)) as [H1 H2]. split.
    + intros <-. left. lra.
    + intros [[H3 H4]|[H3 H4]]; [|lra].
      assert (IZR (Int_part (2 * x)) < IZR (k + 1)) by (rewrite plus_IZR; lra). assert (IZR k < IZR (Int_part (2 * x) + 1)) by (rewrite plus_IZR; lra). apply lt_IZR in H0, H5. lia.
  - destruct (base_Int_part (- (2 * x))) as [H1 H2]. split.
    + intros <-. right. rewrite opp_IZR. lra.
    + intros [[H3 H4]|[H3 H4]]; [lra|].
      assert (IZR (Int_part (- (2 * x))) < IZR (- k + 1)) by (rewrite plus_IZR, opp_IZR; lra). assert (IZR (- k) < IZR (Int_part (- (2 * x)) + 1)) by (rewrite plus_IZR, opp_IZR; lra).
      apply lt_IZR in H0, H5. lia.
Qed.

Section Program.
Variable parse_orbitals : list dline -> outcome (list (oinfo R)).
Variable files : string -> option ocontents.
Variable opens : string -> bool -> bool.
Variable w3j : Z -> Z -> Z -> Z -> Z -> Z -> R.

(** ** Statements *)
Local Open Scope string_scope.
Definition optional_info (l : list word) (blank : bool) : option (option string) :=
  match l with [] => if blank then None else Some None | w :: _ => Some (Some (w_text w)) end.
Definition parsed (line : cline) : option ostatement :=
  match cl_words line with
  | [] => None
  | k :: l =>
      if String.eqb (w_text k) "set-output-file" then
        match l with
        | [] => None
        | [f] => if cl_blank line then None else Some (Output (w_text f) false)
        | f :: m :: _ => Some (Output (w_text f) (String.eqb (w_text m) "append"))
        end
      else if String.eqb (w_text k) "set-indexing" then match l with f :: _ => Some (Orbitals (w_text f)) | [] => None end
      else if String.eqb (w_text k) "define-operator" then match l with i :: f :: _ => Some (Operator (w_text i) (w_text f)) | _ => None end
      else if String.eqb (w_text k) "define-densities" then
        match l with
        | a :: b :: c :: d :: e :: g :: f :: l7 =>
            match w_num a, w_int b, w_int c, w_num d, w_int e, w_int g, optional_info l7 (cl_blank line) with
            | Some Jf, Some gf, Some nf, Some Ji, Some gi, Some ni, Some i => Some (Densities (to_int (2 * Jf)) gf nf (to_int (2 * Ji)) gi ni (w_text f) i)
            | _, _, _, _, _, _, _ => None
            end
        | _ => None
        end
      else None
  end.
Lemma parsed_says : forall line st, parsed line = Some st <-> osays line st.
Proof.
  intros [ws bl] st. split.
  - unfold parsed. cbn [cl_words cl_blank]. destruct ws as [|k l]; [discriminate|].
    destruct (String.eqb_spec (w_text k) "set-output-file") as [Ek|_].
    { destruct l as [|f [|m rest]]; [discriminate| |].
      - destruct bl; [discriminate|]. intros E. injection E as <-. constructor. exact Ek.
      - intros E. injection E as <-. constructor; [exact Ek|]. destruct (String.eqb_spec (w_text m) "append") as [->|H]; [tauto|]. split; [discriminate|contradiction]. }
    destruct (String.eqb_spec (w_text k) "set-indexing") as [Ek|_].
    { destruct l; [discriminate|]. intros E. injection E as <-. constructor. exact Ek. }
    destruct (String.eqb_spec (w_text k) "define-operator") as [Ek|_].
    { destruct l as [|i [|f rest]]; try discriminate. intros E. injection E as <-. constructor. exact Ek. }
    destruct (String.eqb_spec (w_text k) "define-densities") as [Ek|_]; [|discriminate].
    destruct l as [|a [|b [|c [|d [|e [|g [|f l7]]]]]]]; try discriminate.
    destruct (w_num a) eqn:Ea; [|discriminate]. destruct (w_int b) eqn:Eb; [|discriminate]. destruct (w_int c) eqn:Ec; [|discriminate].
    destruct (w_num d) eqn:Ed; [|discriminate]. destruct (w_int e) eqn:Ee; [|discriminate]. destruct (w_int g) eqn:Eg; [|discriminate].
    destruct l7 as [|i rest]; cbn [optional_info].
    + destruct bl; [discriminate|]. intros E. injection E as <-. eapply say_densities; try eassumption; apply to_int_twice; reflexivity.
    + intros E. injection E as <-. eapply say_densities_info; try eassumption; apply to_int_twice; reflexivity.
  - intros H. destruct H as [k f Hk|k f m rest bl' append Hk Ha|k f rest bl' Hk|k i f rest bl' Hk
      |k wJf wgf wnf wJi wgi wni f Jf Ji twoJf gf nf twoJi gi ni Hk H1 T1 H2 H3 H4 T2 H5 H6
      |k wJf wgf wnf wJi wgi wni f i rest bl' Jf Ji twoJf gf nf twoJi gi ni Hk H1 T1 H2 H3 H4 T2 H5 H6]; unfold parsed; cbn [cl_words cl_blank]; rewrite Hk; cbn [String.eqb Ascii.eqb Bool.eqb].
    + reflexivity.
    + destruct (String.eqb_spec (w_text m) "append") as [E|E]; [rewrite (proj2 Ha E); reflexivity|]. destruct append; [|reflexivity]. destruct E. apply Ha. reflexivity.
    + reflexivity.
    + reflexivity.
    + rewrite H1, H2, H3, H4, H5, H6. cbn [optional_info]. rewrite (proj2 (to_int_twice _ _) T1), (proj2 (to_int_twice _ _) T2). reflexivity.
    + rewrite H1, H2, H3, H4, H5, H6. cbn [optional_info]. rewrite (proj2 (to_int_twice _ _) T1), (proj2 (to_int_twice _ _) T2). reflexivity.
Qed.
Local Close Scope string_scope.
(** the density stream of a statement, on a space *)
Definition stream_for (sp : wspace R) (st : ostatement) : outcome dstream :=
  match st with
  | Densities Jf gf nf Ji gi ni data info =>
      check (match files data with Some _ => true | None => false end) ;;;
      match info with
      | None => t <- text_file files data ;; single_stream parse_orbitals sp Jf gf nf Ji gi ni t
      | Some i => ti <- text_file files i ;; t <- text_file files data ;; multi_stream sp Jf gf nf Ji gi ni ti t
      end
  | _ => Exit
  end%outcome.
Definition perform (r : orun) (st : ostatement) : outcome orun :=
  match st with
  | Output f a => Ok (ORun (Some (f, a)) (r_space r) (r_ops r) (r_dens r))
  | Orbitals f => match files f with Some (OOrbitals os) => Ok (ORun (r_out r) (mk_wspace os) (r_ops r) (r_dens r)) | _ => Exit end
  | Operator n f => op <- read_operator files n f ;; Ok (ORun (r_out r) (r_space r) (r_ops r ++ [op]) (r_dens r))
  | _ => d <- stream_for (r_space r) st ;; Ok (ORun (r_out r) (r_space r) (r_ops r) (r_dens r ++ [d]))
  end%outcome.
Lemma line_performs : forall r line, obs_line parse_orbitals files r line = match parsed line with Some st => perform r st | None => Exit end.
Proof.
  intros r [ws bl]. unfold obs_line, parsed. cbn [cl_words cl_blank]. destruct ws as [|k l]; [reflexivity|]. cbn [next_text bind].
  destruct (String.eqb (w_text k) "set-output-file").
  { destruct l as [|f [|m rest]]; [reflexivity| |reflexivity]. cbn [next_text bind optional]. destruct bl; reflexivity. }
  destruct (String.eqb (w_text k) "set-indexing"); [destruct l; reflexivity|].
  destruct (String.eqb (w_text k) "define-operator"); [destruct l as [|i [|f rest]]; reflexivity|].
  destruct (String.eqb (w_text k) "define-densities"); [|reflexivity].
  destruct l as [|a l]; [reflexivity|]. cbn [next_d]. destruct (w_num a) as [Jf|]; [|destruct l as [|? [|? [|? [|? [|? [|? ?]]]]]]; reflexivity]. cbn [bind].
  destruct l as [|b l]; [reflexivity|]. cbn [next_i]. destruct (w_int b) as [gf|]; [|destruct l as [|? [|? [|? [|? [|? ?]]]]]; reflexivity]. cbn [bind].
  destruct l as [|c l]; [reflexivity|]. cbn [next_i]. destruct (w_int c) as [nf|]; [|destruct l as [|? [|? [|? [|? ?]]]]; reflexivity]. cbn [bind].
  destruct l as [|d l]; [reflexivity|]. cbn [next_d]. destruct (w_num d) as [Ji|]; [|destruct l as [|? [|? [|? ?]]]; reflexivity]. cbn [bind].
  destruct l as [|e l]; [reflexivity|]. cbn [next_i]. destruct (w_int e) as [gi|]; [|destruct l as [|? [|? ?]]; reflexivity]. cbn [bind].
  destruct l as [|g l]; [reflexivity|]. cbn [next_i]. destruct (w_int g) as [ni|]; [|destruct l as [|? ?]; reflexivity]. cbn [bind].
  destruct l as [|f l7]; [reflexivity|]. cbn [next_text bind].
  destruct l7 as [|i rest]; cbn [optional_info].
  - destruct bl; cbn [perform stream_for]; [destruct (files (w_text f)); reflexivity|]. destruct (files (w_text f)); [cbn [check bind]|reflexivity]. destruct (text_file files (w_text f)); reflexivity.
  - cbn [perform stream_for]. destruct (files (w_text f)); [cbn [check bind]|reflexivity]. destruct (text_file files (w_text i)); [cbn [bind]|reflexivity..]. destruct (text_file files (w_text f)); reflexivity.
Qed.
(** what a statement does *)
Inductive performs (r : orun) : ostatement -> orun -> Prop :=
| performs_output : forall f a, performs r (Output f a) (ORun (Some (f, a)) (r_space r) (r_ops r) (r_dens r))
| performs_orbitals : forall f os, files f = Some (OOrbitals os) -> performs r (Orbitals f) (ORun (r_out r) (mk_wspace os) (r_ops r) (r_dens r))
| performs_operator : forall n file f, files file = Some (OElements f) -> orbital_info (rf_bra f) = orbital_info (rf_ket f) ->
    performs r (Operator n file) (ORun (r_out r) (r_space r) (r_ops r ++ [(n, f)]) (r_dens r))
| performs_single : forall Jf gf nf Ji gi ni data t d, files data = Some (OText t) -> single_stream parse_orbitals (r_space r) Jf gf nf Ji gi ni t = Ok d ->
    performs r (Densities Jf gf nf Ji gi ni data None) (ORun (r_out r) (r_space r) (r_ops r) (r_dens r ++ [d]))
| performs_multi : forall Jf gf nf Ji gi ni data info t ti d, files data = Some (OText t) -> files info = Some (OText ti) ->
    multi_stream (r_space r) Jf gf nf Ji gi ni ti t = Ok d ->
    performs r (Densities Jf gf nf Ji gi ni data (Some info)) (ORun (r_out r) (r_space r) (r_ops r) (r_dens r ++ [d])).
Lemma text_file_ok : forall f t, text_file files f = Ok t <-> files f = Some (OText t).
Proof. intros f t. unfold text_file. destruct (files f) as [[| |]|]; split; intros H; try discriminate; injection H as <-; reflexivity. Qed.
Lemma read_operator_ok : forall n file op, read_operator files n file = Ok op <-> exists f, op = (n, f) /\ files file = Some (OElements f) /\ orbital_info (rf_bra f) = orbital_info (rf_ket f).
Proof.
  intros n file op. unfold read_operator. destruct (files file) as [[os|f|t]|]; try (split; [discriminate|intros (f' & _ & H & _); discriminate]).
  unfold same_orbitals. destruct (list_eq_dec oinfo_eq_dec (orbital_info (rf_bra f)) (orbital_info (rf_ket f))) as [e|ne]; cbn [cassert bind].
  - split; [intros H; injection H as <-; eauto|]. intros (f' & -> & H & _). injection H as <-. reflexivity.
  - split; [discriminate|]. intros (f' & -> & H & H'). injection H as <-. contradiction.
Qed.
Lemma perform_performs : forall r st r', perform r st = Ok r' <-> performs r st r'.
Proof.
  intros r st r'. split.
  - destruct st as [f a|f|n f|Jf gf nf Ji gi ni data info]; cbn [perform].
    + intros H. injection H as <-. constructor.
    + destruct (files f) as [[os| |]|] eqn:E; try discriminate. intros H. injection H as <-. constructor. exact E.
    + intros H. apply bind_inv in H. destruct H as (op & H1 & H2). injection H2 as <-. apply read_operator_ok in H1. destruct H1 as (g & -> & Hf & Ho). constructor; assumption.
    + intros H. apply bind_inv in H. destruct H as (d & H1 & H2). injection H2 as <-. cbn [stream_for] in H1. apply bind_inv in H1. destruct H1 as (u & _ & H1).
      destruct info as [i|].
      * apply bind_inv in H1. destruct H1 as (ti & Ht & H1). apply bind_inv in H1. destruct H1 as (t & Ht' & H1). apply text_file_ok in Ht, Ht'. econstructor; eassumption.
      * apply bind_inv in H1. destruct H1 as (t & Ht & H1). apply text_file_ok in Ht. econstructor; eassumption.
  - intros H. destruct H as [f a|f os E|n file f E Ho|Jf gf nf Ji gi ni data t d E Es|Jf gf nf Ji gi ni data info t ti d E E' Es]; cbn [perform stream_for].
    + reflexivity.
    + rewrite E. reflexivity.
    + rewrite (proj2 (read_operator_ok n file (n, f))) by eauto. reflexivity.
    + rewrite E. cbn [check bind]. rewrite (proj2 (text_file_ok _ _) E). cbn [bind]. rewrite Es. reflexivity.
    + rewrite E. cbn [check bind]. rewrite (proj2 (text_file_ok _ _) E'). cbn [bind]. rewrite (proj2 (text_file_ok _ _) E). cbn [bind]. rewrite Es. reflexivity.
Qed.
Theorem control_line : forall r line r', obs_line parse_orbitals files r line = Ok r' <-> exists st, osays line st /\ performs r st r'.
Proof.
  intros r line r'. rewrite line_performs. split.
  - destruct (parsed line) as [st|] eqn:E; [|discriminate]. intros H. exists st. split; [apply parsed_says; exact E|apply perform_performs; exact H].
  - intros (st & Hs & Hp). apply parsed_says in Hs. rewrite Hs. apply perform_performs. exact Hp.
Qed.
Theorem control_refused : forall r line, (forall st, ~ osays line st) -> obs_line parse_orbitals files r line = Exit.
Proof.
  intros r line H. rewrite line_performs. destruct (parsed line) as [st|] eqn:E; [|reflexivity]. apply parsed_says in E. destruct (H st E).
Qed.
Theorem one_statement : forall line st st', osays line st -> osays line st' -> st = st'.
Proof. intros line st st' H H'. apply parsed_says in H, H'. congruence. Qed.

(** ** A list of statements *)
Fixpoint run (r : orun) (sts : list ostatement) : outcome orun :=
  match sts with [] => Ok r | st :: sts' => r' <- perform r st ;; run r' sts' end%outcome.
Lemma run_lines : forall lines sts r, Forall2 osays lines sts -> obs_lines parse_orbitals files r lines = run r sts.
Proof.
  intros lines sts r H. revert r. induction H as [|line st lines sts Hs _ IH]; intros r; [reflexivity|]. cbn [obs_lines run]. rewrite line_performs, (proj2 (parsed_says _ _) Hs).
  destruct (perform r st); try reflexivity. cbn [bind]. apply IH.
Qed.
Lemma run_app : forall a b r, run r (a ++ b) = (r' <- run r a ;; run r' b)%outcome.
Proof. induction a as [|s a IH]; intros b r; [reflexivity|]. cbn [app run]. destruct (perform r s); try reflexivity. cbn [bind]. apply IH. Qed.
Definition out_after (o : option (string * bool)) (sts : list ostatement) : option (string * bool) :=
  fold_left (fun o st => match st with Output f a => Some (f, a) | _ => o end) sts o.
Lemma last_output_after : forall sts o x, last_output sts x -> out_after o sts = Some x.
Proof.
  intros sts o [f a] (pre & post & -> & Hno). unfold out_after. rewrite fold_left_app. cbn [fold_left fst snd].
  assert (H : forall l o', (forall f a, ~ In (Output f a) l) -> fold_left (fun (o : option (string * bool)) st => match st with Output f a => Some (f, a) | _ => o end) l o' = o').
  { induction l as [|s l IH]; intros o' Hl; [reflexivity|]. cbn [fold_left]. rewrite IH by (intros; intros Hin; eapply Hl; right; exact Hin). destruct s; try reflexivity. destruct (Hl file append). left. reflexivity. }
  apply H. exact Hno.
Qed.
Definition reads_as (nf : string * string) (op : string * rfile) : Prop :=
  fst op = fst nf /\ files (snd nf) = Some (OElements (snd op)) /\ orbital_info (rf_bra (snd op)) = orbital_info (rf_ket (snd op)).
Lemma perform_operator : forall r n f op, reads_as (n, f) op -> perform r (Operator n f) = Ok (ORun (r_out r) (r_space r) (r_ops r ++ [op]) (r_dens r)).
Proof.
  intros r n f [n' g] (H1 & H2 & H3). cbn in *. subst n'. rewrite (proj2 (read_operator_ok n f (n, g))) by eauto. reflexivity.
Qed.
Lemma run_before : forall sts r rops, densities_in sts = [] -> (forall f, In (Orbitals f) sts -> exists os, files f = Some (OOrbitals os)) ->
  Forall2 reads_as (operators_in sts) rops -> exists sp, run r sts = Ok (ORun (out_after (r_out r) sts) sp (r_ops r ++ rops) (r_dens r)).
Proof.
  induction sts as [|st sts IH]; intros r rops Hd Ho Hr.
  - inversion Hr; subst. exists (r_space r). rewrite app_nil_r. destruct r; reflexivity.
  - assert (Ho' : forall f, In (Orbitals f) sts -> exists os, files f = Some (OOrbitals os)) by (intros; apply Ho; right; assumption).
    destruct st as [f a|f|n f|Jf gf nf Ji gi ni data info].
    + cbn [run perform bind]. destruct (IH (ORun (Some (f, a)) (r_space r) (r_ops r) (r_dens r)) rops Hd Ho' Hr) as (sp & E). exists sp. exact E.
    + destruct (Ho f (or_introl eq_refl)) as (os & Ef). cbn [run perform]. rewrite Ef. cbn [bind]. destruct (IH (ORun (r_out r) (mk_wspace os) (r_ops r) (r_dens r)) rops Hd Ho' Hr) as (sp & E). exists sp. exact E.
    + cbn [operators_in flat_map app] in Hr. inversion Hr as [|? op ? rops' Hop Hr']; subst. cbn [run]. rewrite (perform_operator r n f op Hop). cbn [bind].
      destruct (IH (ORun (r_out r) (r_space r) (r_ops r ++ [op]) (r_dens r)) rops' Hd Ho' Hr') as (sp & E). exists sp. rewrite E. cbn [r_ops r_out r_dens]. rewrite <- app_assoc. reflexivity.
    + discriminate.
Qed.
Lemma run_after : forall sts r rops ds, (forall f, ~ In (Orbitals f) sts) -> Forall2 reads_as (operators_in sts) rops ->
  Forall2 (fun st d => stream_for (r_space r) st = Ok d) (densities_in sts) ds ->
  run r sts = Ok (ORun (out_after (r_out r) sts) (r_space r) (r_ops r ++ rops) (r_dens r ++ ds)).
Proof.
  induction sts as [|st sts IH]; intros r rops ds Hno Hr Hd.
  - inversion Hr; subst. inversion Hd; subst. rewrite !app_nil_r. destruct r; reflexivity.
  - assert (Hno' : forall f, ~ In (Orbitals f) sts) by (intros f Hin; apply (Hno f); right; exact Hin).
    destruct st as [f a|f|n f|Jf gf nf Ji gi ni data info].
    + cbn [run perform bind]. rewrite (IH (ORun (Some (f, a)) (r_space r) (r_ops r) (r_dens r)) rops ds Hno' Hr Hd). reflexivity.
    + destruct (Hno f). left. reflexivity.
    + cbn [operators_in flat_map app] in Hr. inversion Hr as [|? op ? rops' Hop Hr']; subst. cbn [run]. rewrite (perform_operator r n f op Hop). cbn [bind].
      rewrite (IH (ORun (r_out r) (r_space r) (r_ops r ++ [op]) (r_dens r)) rops' ds Hno' Hr' Hd). cbn [r_ops r_out r_dens r_space]. rewrite <- app_assoc. reflexivity.
    + cbn [densities_in filter is_densities] in Hd. inversion Hd as [|? d ? ds' Hst Hd']; subst. cbn [run]. unfold perform. rewrite Hst. cbn [bind].
      rewrite (IH (ORun (r_out r) (r_space r) (r_ops r) (r_dens r ++ [d])) rops ds' Hno' Hr Hd'). cbn [r_ops r_out r_dens r_space]. rewrite <- app_assoc. reflexivity.
Qed.

(** ** The report *)
Lemma density_read : forall sp st d, space_ok (forget sp) -> density_in parse_orbitals files sp st d -> exists D, stream_for sp st = Ok (stream_of d D)
  /\ density_of (forget sp) (d_min d) (d_max d) (parity_change (d_bra d) (d_ket d)) (d_Tz0 d) (d_els d) D /\ Z.even (n_2M (d_bra d) - n_2M (d_ket d)) = true.
Proof.
  intros sp st d Hs [bra ket a b orbl os data file t Hf Hfile Hp Hnd Hev HM Hab Hk Hloc|bra ket J0_max version announced info vs file ifile t ti Hf Hif Hi Hdat Hlen HJ Hnd HM Hloc].
  - destruct (single_read parse_orbitals sp t bra ket a b (orbitals_in sp SP) (orbitals_in sp SN) orbl os data Hs Hfile eq_refl eq_refl Hp Hnd Hev Hab Hk) as (D & E & HD).
    { apply Forall_forall. exact Hloc. }
    exists D. cbn [stream_for]. rewrite Hf. cbn [check bind]. rewrite (proj2 (text_file_ok _ _) Hf). cbn [bind]. split; [exact E|]. split; [exact HD|exact HM].
  - destruct (multi_read sp ti t J0_max version announced info bra ket vs Hs Hi Hdat Hlen HJ Hnd Hloc) as (D & E & HD).
    exists D. cbn [stream_for]. rewrite Hf. cbn [check bind]. rewrite (proj2 (text_file_ok _ _) Hif), (proj2 (text_file_ok _ _) Hf). cbn [bind]. split; [exact E|]. split; [exact HD|exact HM].
Qed.
Lemma observed_dec : forall o d, observed w3j o d \/ ~ observed w3j o d.
Proof.
  intros o d. unfold observed. destruct (o_q o) as [[J0 g0] Tz0].
  destruct (Z.eq_dec (parity_change (d_bra d) (d_ket d)) g0); [|right; tauto]. destruct (Z.eq_dec (d_Tz0 d) Tz0); [|right; tauto].
  destruct (Z_le_dec (Z.abs (n_2J (d_bra d) - 2 * J0)) (n_2J (d_ket d))); [|right; intros H; tauto]. destruct (Z_le_dec (n_2J (d_ket d)) (n_2J (d_bra d) + 2 * J0)); [|right; intros H; tauto].
  destruct (Bool.bool_dec (Z.even (n_2J (d_bra d) + 2 * J0 + n_2J (d_ket d))) true); [|right; tauto].
  destruct (Rle_dec (/ 10 ^ 8) (Rabs (w3j (n_2J (d_bra d)) (2 * J0)%Z (n_2J (d_ket d)) (- n_2M (d_bra d))%Z (n_2M (d_bra d) - n_2M (d_ket d))%Z (n_2M (d_ket d))))); [|right; tauto].
  destruct (Z_le_dec (d_min d) J0); [|right; tauto]. destruct (Z_le_dec J0 (d_max d)); [|right; tauto]. left. tauto.
Qed.
Definition stored (sp : wspace R) (d : dens) (s : dstream) : Prop := exists D, s = stream_of d D
  /\ density_of (forget sp) (d_min d) (d_max d) (parity_change (d_bra d) (d_ket d)) (d_Tz0 d) (d_els d) D /\ Z.even (n_2M (d_bra d) - n_2M (d_ket d)) = true.
Lemma section_ok : forall (sp : wspace R) nf o f ds ss, space_ok (forget sp) -> files (snd nf) = Some (OElements f) -> operator_in files sp nf o ->
  Forall2 (stored sp) ds ss -> exists ls, section_lines w3j (forget sp) (operator_of f) ss = Ok ls /\ lines_of w3j o ds ls /\ rf_q f = o_q o.
Proof.
  intros sp nf o f ds ss Hs Hf (f' & Hf' & Hn & Hb & Hk & Hq & Hsec & Hop & Hel) H. rewrite Hf in Hf'. injection Hf' as <-.
  induction H as [|d s ds ss (D & -> & HD & HM) _ (ls & E & Hls & _)]; [exists []; repeat split; [constructor|exact Hq]|].
  destruct (observable_value w3j sp o f d D Hs Hq Hsec Hop Hel HD HM) as [Hy Hno]. cbn [section_lines]. destruct (observed_dec o d) as [Ho|Ho].
  - rewrite (Hy Ho). cbn [bind]. rewrite E. cbn [bind]. eexists. split; [reflexivity|]. split; [constructor; assumption|exact Hq].
  - rewrite (Hno Ho). cbn [bind]. rewrite E. cbn [bind]. eexists. split; [reflexivity|]. split; [apply no_line; assumption|exact Hq].
Qed.
Lemma sections_ok : forall (sp : wspace R) nfs ops rops ds ss, space_ok (forget sp) -> Forall2 (operator_in files sp) nfs ops -> Forall2 reads_as nfs rops ->
  Forall2 (stored sp) ds ss -> exists out, sections_of w3j (forget sp) rops ss = Ok out /\ report w3j ops ds out.
Proof.
  intros sp nfs ops rops ds ss Hs Ho. revert rops. induction Ho as [|nf o nfs ops Hof _ IH]; intros rops Hr Hd.
  - inversion Hr; subst. exists []. split; [reflexivity|constructor].
  - inversion Hr as [|? [n f] ? rops' (Hn & Hf & _) Hr']; subst. cbn [fst snd] in Hn, Hf. destruct (IH rops' Hr' Hd) as (out & E & Hrep).
    destruct (section_ok sp nf o f ds ss Hs Hf Hof Hd) as (ls & El & Hl & Hq). cbn [sections_of]. rewrite El. cbn [bind]. rewrite E. cbn [bind].
    destruct Hof as (f' & _ & Hn' & _). rewrite Hn, <- Hn', Hq. destruct ls as [|l ls].
    + exists out. split; [reflexivity|apply no_section; assumption].
    + eexists. split; [reflexivity|]. apply a_section; [exact Hl|discriminate|exact Hrep].
Qed.
Lemma operators_read : forall sp nfs ops, Forall2 (operator_in files sp) nfs ops -> exists rops, Forall2 reads_as nfs rops.
Proof.
  intros sp nfs ops H. induction H as [|nf o nfs ops (f & Hf & Hn & Hb & Hk & _) _ (rops & IH)]; [exists []; constructor|].
  exists ((fst nf, f) :: rops). constructor; [|exact IH]. split; [reflexivity|]. split; [exact Hf|]. cbn [snd]. rewrite Hb, Hk. reflexivity.
Qed.
Lemma Forall2_app_l : forall A B (R : A -> B -> Prop) l1 l2 m, Forall2 R (l1 ++ l2) m -> exists m1 m2, m = m1 ++ m2 /\ Forall2 R l1 m1 /\ Forall2 R l2 m2.
Proof. intros. apply Forall2_app_inv_l in H. destruct H as (m1 & m2 & H1 & H2 & ->). eauto. Qed.
Theorem obscalc_ok : forall lines sts out file os ops ds, Forall2 osays lines sts -> last_output sts out -> opens (fst out) (snd out) = true ->
  orbitals_first sts file -> files file = Some (OOrbitals os) -> (forall f, In (Orbitals f) sts -> exists os', files f = Some (OOrbitals os')) ->
  space_ok (forget (mk_wspace os)) -> Forall2 (operator_in files (mk_wspace os)) (operators_in sts) ops ->
  Forall2 (density_in parse_orbitals files (mk_wspace os)) (densities_in sts) ds ->
  exists ss, obscalc parse_orbitals files opens w3j lines = Ok (out, ss) /\ report w3j ops ds ss.
Proof.
  intros lines sts [name ap] file os ops ds Hl Hout Hop (pre & post & -> & Hno & Hpre) Hfile Horb Hs Hops Hds.
  destruct (operators_read _ _ _ Hops) as (rops & Hr).
  assert (Hst : exists ss, Forall2 (fun st d => stream_for (mk_wspace os) st = Ok d) (densities_in (pre ++ Orbitals file :: post)) ss /\ Forall2 (stored (mk_wspace os)) ds ss).
  { clear - Hds Hs. induction Hds as [|st d sts ds H _ (ss & H1 & H2)]; [exists []; split; constructor|]. destruct (density_read _ _ _ Hs H) as (D & E & HD & HM).
    exists (stream_of d D :: ss). split; constructor; try assumption. exists D. auto. }
  destruct Hst as (ss & Hss & Hstored).
  assert (Eo : operators_in (pre ++ Orbitals file :: post) = operators_in pre ++ operators_in post) by (unfold operators_in; rewrite flat_map_app; reflexivity).
  assert (Ed : densities_in (pre ++ Orbitals file :: post) = densities_in post).
  { unfold densities_in in *. rewrite filter_app, Hpre. reflexivity. }
  rewrite Eo in Hr. apply Forall2_app_l in Hr. destruct Hr as (r1 & r2 & -> & Hr1 & Hr2). rewrite Ed in Hss.
  assert (Erun : run orun0 (pre ++ Orbitals file :: post) = Ok (ORun (Some (name, ap)) (mk_wspace os) (r1 ++ r2) ss)).
  { rewrite run_app. destruct (run_before pre orun0 r1 Hpre) as (sp & E); [intros f Hin; apply Horb; apply in_or_app; left; exact Hin|exact Hr1|].
    rewrite E. cbn [bind run perform]. rewrite Hfile. cbn [bind]. rewrite (run_after post _ r2 ss Hno Hr2) by exact Hss. cbn [r_out r_space r_ops r_dens app orun0].
    do 2 f_equal. apply (last_output_after _ None) in Hout. unfold out_after in *. rewrite fold_left_app in Hout. cbn [fold_left] in Hout. exact Hout. }
  assert (Hr' : Forall2 reads_as (operators_in (pre ++ Orbitals file :: post)) (r1 ++ r2)) by (rewrite Eo; apply Forall2_app; assumption).
  destruct (sections_ok (mk_wspace os) _ ops (r1 ++ r2) ds ss Hs Hops Hr' Hstored) as (out & Es & Hrep). exists out. split; [|exact Hrep].
  unfold obscalc. rewrite (run_lines _ _ _ Hl), Erun. cbn [bind r_out]. cbn [fst snd] in Hop. rewrite Hop. cbn [check bind r_space r_ops r_dens]. rewrite Es. reflexivity.
Qed.
End Program.
