(** C154-C156: proofs. *)
From Coq Require Import String List ZArith Bool Lia.
From Verif Require Import Base BaseLemmas H2Model H2Spec ConvModel ConvSpec ConvProof ConvFinal StatModel.
Import ListNotations.
Open Scope nat_scope.
Open Scope outcome_scope.

(** what the arguments ask for: a file, or a mode and a file *)
Definition asks (args : list string) (mode file : string) : Prop :=
  args = [file] /\ mode = "header"%string /\ file <> "--help"%string \/ exists rest, args = ("--" ++ mode)%string :: file :: rest /\ mode <> "help"%string.
Definition asks_usage (args : list string) : Prop := args = [] \/ exists rest, args = "--help"%string :: rest.
Local Open Scope string_scope.
Lemma substring_all : forall s, substring 0 (String.length s) s = s.
Proof. induction s as [|c s IH]; cbn; [reflexivity|]. rewrite IH. reflexivity. Qed.
Lemma dashes : forall a, String.eqb (substring 0 2 a) "--" = true <-> exists m, a = "--" ++ m.
Proof.
  intros a. rewrite String.eqb_eq. split.
  - destruct a as [|c1 [|c2 s]]; cbn; try discriminate. intros H. assert (E : substring 0 0 s = "") by (destruct s; reflexivity). rewrite E in H. injection H as -> ->. exists s. reflexivity.
  - intros (m & ->). cbn. destruct m; reflexivity.
Qed.
Lemma mode_of : forall m, substring 2 (String.length ("--" ++ m) - 2) ("--" ++ m) = m.
Proof. intros m. cbn. rewrite Nat.sub_0_r. apply substring_all. Qed.
Lemma dash_inj : forall a b, "--" ++ a = "--" ++ b -> a = b.
Proof. intros a b H. injection H as H. exact H. Qed.
Theorem arguments_mode : forall args mode file, h2stat_arguments args = AskMode mode file <-> asks args mode file.
Proof.
  intros args mode file. unfold h2stat_arguments, asks. split.
  - destruct args as [|a l]; [discriminate|]. destruct (String.eqb_spec a "--help"); [discriminate|]. destruct l as [|f l].
    + intros H. injection H as <- <-. left. auto.
    + destruct (String.eqb (substring 0 2 a) "--") eqn:E; [|discriminate]. apply dashes in E. destruct E as (m & ->). rewrite mode_of. intros H. injection H as <- <-. right. exists l. split; [reflexivity|]. intros ->. apply n. reflexivity.
  - intros [(-> & -> & H)|(rest & -> & H)].
    + rewrite (proj2 (String.eqb_neq _ _) H). reflexivity.
    + assert (H' : "--" ++ mode <> "--help") by (intros C; apply H; apply dash_inj; exact C). rewrite (proj2 (String.eqb_neq _ _) H'). rewrite (proj2 (dashes _)) by eauto. rewrite mode_of. reflexivity.
Qed.
Theorem arguments_usage : forall args, h2stat_arguments args = AskUsage <-> asks_usage args.
Proof.
  intros args. unfold h2stat_arguments, asks_usage. split.
  - destruct args as [|a l]; [auto|]. destruct (String.eqb_spec a "--help") as [->|]; [eauto|]. destruct l; [discriminate|]. destruct (String.eqb _ _); discriminate.
  - intros [->|(rest & ->)]; reflexivity.
Qed.
Theorem arguments_nothing : forall args, h2stat_arguments args = AskNothing <-> ~ asks_usage args /\ forall mode file, ~ asks args mode file.
Proof.
  intros args. split.
  - intros H. split; [rewrite <- arguments_usage|intros mode file; rewrite <- arguments_mode]; congruence.
  - intros [H1 H2]. destruct (h2stat_arguments args) as [| |mode file] eqn:E; [destruct H1; apply arguments_usage; exact E|reflexivity|destruct (H2 mode file); apply arguments_mode; exact E].
Qed.
Local Close Scope string_scope.

Section Stat.
Variable E : env.
Notation D := (dbl E).
Notation h2stat := (h2stat E).
Variable disk : string -> option (list Z * tfile E).
Lemma scan_reads : forall h st, scan E st h = reads_any E st h.
Proof. induction h as [|i h IH]; intros st; [reflexivity|]. cbn [scan reads_any]. destruct (read_any E st i) as [[m st']| | |]; try reflexivity. cbn [bind fst snd]. rewrite IH. reflexivity. Qed.
(** only modes that are known end with success *)
Definition modes : list string := ["header"; "orbitals"; "indexing"; "verify"; "matrices"]%string.
Theorem stat_known : forall args r, h2stat disk args = Ok r -> asks_usage args /\ r = RUsage \/ exists mode file data text st, asks args mode file /\ In mode modes /\ disk file = Some (data, text)
  /\ open_file E file data text = Ok st.
Proof.
  intros args r H. unfold StatModel.h2stat in H. destruct (h2stat_arguments args) as [| |mode file] eqn:Ea; [|discriminate|].
  - left. split; [apply arguments_usage; exact Ea|]. congruence.
  - right. apply arguments_mode in Ea. destruct (disk file) as [[data text]|] eqn:Ed; [|discriminate]. destruct (open_file E file data text) as [st| | |] eqn:Eo; try discriminate. cbn [bind] in H.
    exists mode, file, data, text, st. split; [exact Ea|]. split; [|auto]. unfold modes. cbn [In].
    destruct (String.eqb_spec mode "header"); [auto|]. destruct (String.eqb_spec mode "orbitals"); [auto|]. destruct (String.eqb_spec mode "indexing"); [auto|]. destruct (String.eqb_spec mode "verify"); [auto|]. destruct (String.eqb_spec mode "matrices"); [auto 8|discriminate].
Qed.
Lemma asks_run : forall args mode file data text, asks args mode file -> disk file = Some (data, text) -> h2stat_arguments args = AskMode mode file.
Proof. intros args mode file data text H _. apply arguments_mode. exact H. Qed.
Theorem stat_usage : forall args, asks_usage args -> h2stat disk args = Ok RUsage.
Proof. intros args Ha. apply arguments_usage in Ha. unfold StatModel.h2stat. rewrite Ha. reflexivity. Qed.
Theorem stat_refused : forall args, ~ asks_usage args -> (forall mode file, ~ asks args mode file) -> h2stat disk args = Exit.
Proof. intros args Ha Hn. unfold StatModel.h2stat. rewrite (proj2 (arguments_nothing args) (conj Ha Hn)). reflexivity. Qed.
Theorem stat_missing : forall args mode file, asks args mode file -> disk file = None -> h2stat disk args = Exit.
Proof. intros args mode file Ha Hd. apply arguments_mode in Ha. unfold StatModel.h2stat. rewrite Ha, Hd. reflexivity. Qed.
Theorem stat_unknown : forall args mode file data text st, asks args mode file -> disk file = Some (data, text) -> open_file E file data text = Ok st -> ~ In mode modes -> h2stat disk args = Exit.
Proof.
  intros args mode file data text st Ha Hd Ho Hm. apply arguments_mode in Ha. unfold StatModel.h2stat. rewrite Ha, Hd, Ho. cbn [bind]. unfold modes in Hm. cbn [In] in Hm.
  repeat match goal with |- context [String.eqb ?a ?b] => destruct (String.eqb_spec a b); [exfalso; apply Hm; subst; intuition congruence|] end. reflexivity.
Qed.
Theorem stat_opened : forall args mode file data text st, asks args mode file -> disk file = Some (data, text) -> open_file E file data text = Ok st ->
  let ix := any_ix E st in
  (mode = "header"%string -> h2stat disk args = Ok (RHeader ix)) /\ (mode = "orbitals"%string -> h2stat disk args = Ok (ROrbitals ix (ix_p E ix) (ix_n E ix)))
  /\ (mode = "indexing"%string -> h2stat disk args = Ok (RIndexing ix (ix_p E ix) (ix_n E ix) (ix_space E ix) (ix_sectors E ix))).
Proof. intros args mode file data text st Ha Hd Ho ix. apply arguments_mode in Ha. unfold StatModel.h2stat. rewrite Ha, Hd, Ho. cbn [bind]. split; [|split]; intros ->; reflexivity. Qed.
(** verification succeeds if and only if every sector can be read *)
Theorem verify_iff : forall args file data text st, asks args "verify" file -> disk file = Some (data, text) -> open_file E file data text = Ok st ->
  forall r, h2stat disk args = Ok r <-> exists ms, reads_any E st (seq 0 (length (ix_sectors E (any_ix E st)))) = Ok ms /\ r = RVerified (any_ix E st) (length ms).
Proof.
  intros args file data text st Ha Hd Ho r. apply arguments_mode in Ha. unfold StatModel.h2stat. rewrite Ha, Hd, Ho. cbn [bind String.eqb Ascii.eqb Bool.eqb]. rewrite scan_reads. split.
  - destruct (reads_any E st _) as [ms| | |]; try discriminate. intros H. injection H as <-. eauto.
  - intros (ms & -> & ->). reflexivity.
Qed.
Theorem verify_holds : forall args file data text st ms, asks args "verify" file -> disk file = Some (data, text) -> holds E file data text st ms ->
  h2stat disk args = Ok (RVerified (any_ix E st) (length (ix_sectors E (any_ix E st)))).
Proof.
  intros args file data text st ms Ha Hd (Ho & _ & Hr). apply (verify_iff args file data text st Ha Hd Ho). exists ms. split; [exact Hr|]. f_equal.
  assert (L : forall h s l, reads_any E s h = Ok l -> length l = length h).
  { induction h as [|i h IH]; intros s l H; cbn [reads_any] in H; [injection H as <-; reflexivity|]. destruct (read_any E s i) as [[m s']| | |]; try discriminate. cbn [bind fst snd] in H. destruct (reads_any E s' h) as [l'| | |] eqn:El; try discriminate. cbn [bind] in H. injection H as <-. cbn. rewrite (IH _ _ El). reflexivity. }
  rewrite (L _ _ _ Hr), seq_length. reflexivity.
Qed.
(** the matrices printed *)
Definition printed_of (s : sector) (m r : mat D) : Prop :=
  rows r = rows m /\ cols r = cols m /\ forall i j, at_ r i j = if Nat.eqb (s_bi s) (s_ki s) && Nat.ltb j i then at_ m j i else at_ m i j.
Lemma shown_printed : forall s m, printed_of s m (shown E s m).
Proof. intros s m. unfold printed_of, shown, is_diag. destruct (Nat.eqb (s_bi s) (s_ki s)); cbn; repeat split; intros; try destruct (Nat.ltb j i); reflexivity. Qed.
Theorem matrices_holds : forall args file data text st ms, asks args "matrices" file -> disk file = Some (data, text) -> holds E file data text st ms ->
  exists rs, h2stat disk args = Ok (RMatrices (any_ix E st) rs) /\ Forall2 (fun p q => fst q = fst p /\ printed_of (fst p) (snd p) (snd q)) (combine (ix_sectors E (any_ix E st)) ms) rs.
Proof.
  intros args file data text st ms Ha Hd (Ho & _ & Hr). apply arguments_mode in Ha. unfold StatModel.h2stat. rewrite Ha, Hd, Ho. cbn [bind String.eqb Ascii.eqb Bool.eqb]. rewrite scan_reads, Hr. cbn [bind]. eexists. split; [reflexivity|].
  induction (combine (ix_sectors E (any_ix E st)) ms) as [|p l IH]; constructor; [|exact IH]. split; [reflexivity|apply shown_printed].
Qed.
End Stat.
