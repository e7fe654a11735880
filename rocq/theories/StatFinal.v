(** C155-C157: h2stat on files written by the library. *)
From Coq Require Import String List ZArith Bool Lia.
From Verif Require Import Base BaseLemmas H2Model H2Spec H2RoundBin H2Extra3 MapModel ConvModel ConvSpec ConvProof ConvFinal ExEnv ExH2 StatModel StatProof.
Import ListNotations.
Open Scope nat_scope.
Open Scope list_scope.

Section Final.
Variable E : env.
Notation D := (dbl E).
Variable disk : string -> option (list Z * tfile E).
Lemma open_bin_file : forall name data text st, deduced_io_mode name = Ok KBinary -> open_bin E data = Ok st -> open_file E name data text = Ok (inl st).
Proof. intros name data text st Hn Ho. unfold open_file. rewrite Hn. cbn [bind]. rewrite Ho. reflexivity. Qed.
(** what is printed for an element *)
Definition printed_element (c : conversion) (s : sector) (m : mat D) (b k : nat) : D :=
  if Nat.eqb (s_bi s) (s_ki s) && Nat.ltb k b then widen E (via_binary (file_bits E c s m k b)) else widen E (via_binary (file_bits E c s m b k)).
Definition printed_sector (s : sector) (m : mat D) (c : conversion) (q : sector * mat D) : Prop :=
  fst q = s /\ rows (snd q) = length (ss_states (s_bra s)) /\ cols (snd q) = length (ss_states (s_ket s))
  /\ forall b k, b < length (ss_states (s_bra s)) -> k < length (ss_states (s_ket s)) -> at_ (snd q) b k = printed_element c s m b k.
Theorem written_shown : env_ok E -> forall f ix ws name text, indexing_ok E ix -> scheme E f ix -> record_fits E f ix -> Forall2 (fits_sector E) (ix_sectors E ix) ws ->
  deduced_io_mode name = Ok KBinary ->
  exists data, write_file_bin E f ix (whole_operator E ws) = Ok data /\ (disk name = Some (data, text) ->
    (forall args, asks args "verify" name -> h2stat E disk args = Ok (RVerified ix (length (ix_sectors E ix))))
    /\ (forall args, asks args "matrices" name -> exists rs, h2stat E disk args = Ok (RMatrices ix rs)
        /\ Forall2 (fun p q => printed_sector (fst p) (fst (snd p)) (snd (snd p)) q) (combine (ix_sectors E ix) ws) rs)).
Proof.
  intros He f ix ws name text Hi Hs Hr Hf Hn. destruct (binary_round_trip E He f ix ws Hi Hs Hr Hf) as (data & Hw & st & Ho & Hfm & Hix & Hh).
  destruct (Hh (seq 0 (length (ix_sectors E ix)))) as (ms & st' & Hr' & Hms).
  { apply Forall_forall. intros i H. apply in_seq in H. lia. }
  exists data. split; [exact Hw|]. intros Hd. pose proof (open_bin_file name data text st Hn Ho) as Hof.
  assert (Hra : reads_any E (inl st) (seq 0 (length (ix_sectors E ix))) = Ok ms) by (rewrite reads_any_bin, Hr'; reflexivity).
  assert (Hl : length ms = length (ix_sectors E ix)).
  { clear -Hms. rewrite <- (seq_length (length (ix_sectors E ix)) 0) at 1. revert Hms. generalize (seq 0 (length (ix_sectors E ix))). intros l H. induction H; cbn; congruence. }
  split.
  - intros args Ha. apply (verify_iff E disk args name data text (inl st) Ha Hd Hof). exists ms. cbn [any_ix]. rewrite Hix, Hl. auto.
  - intros args Ha. apply arguments_mode in Ha. unfold h2stat. rewrite Ha, Hd, Hof. cbn [bind String.eqb Ascii.eqb Bool.eqb any_ix]. rewrite Hix, scan_reads, Hra. cbn [bind]. eexists. split; [reflexivity|].
    pose proof (iok_canonical E ix Hi) as Hcan. clear -Hms Hf Hcan. set (ss := ix_sectors E ix) in *.
    assert (G : forall ss0 ws0 ms0 k, Forall2 (fits_sector E) ss0 ws0 -> Forall canonical_sector ss0 -> (forall i, nth_error ss (k + i) = nth_error ss0 i) -> (forall i, nth_error ws (k + i) = nth_error ws0 i) ->
      Forall2 (fun i r => exists s m c, nth_error ss i = Some s /\ nth_error ws i = Some (m, c) /\ reads_back E via_binary c s m r) (seq k (length ss0)) ms0 ->
      Forall2 (fun p q => printed_sector (fst p) (fst (snd p)) (snd (snd p)) q) (combine ss0 ws0) (map (fun p : sector * mat D => (fst p, shown E (fst p) (snd p))) (combine ss0 ms0))).
    { induction ss0 as [|s ss0 IH]; intros [|w ws0] ms0 k Hf0 Hcn H1 H2 H3; try (inversion Hf0; fail); [constructor|]. destruct ms0 as [|r ms0]; [inversion H3|]. cbn [length seq] in H3.
      pose proof (Forall_inv Hcn) as Hc1. pose proof (Forall_inv_tail Hcn) as Hc2. clear Hcn.
      inversion H3 as [|? ? ? ? Hh Ht]; subst. inversion Hf0; subst. cbn [combine map]. constructor.
      - destruct Hh as (s' & m & c & A & B & C). rewrite <- (Nat.add_0_r k) in A, B. rewrite H1 in A. rewrite H2 in B. cbn in A, B. injection A as ->. injection B as ->. cbn [fst snd].
        destruct C as (C1 & C2 & C3 & C4). split; [reflexivity|]. destruct (shown_printed E s' r) as (P1 & P2 & P3). cbn [fst snd]. rewrite P1, P2. split; [exact C1|]. split; [exact C2|]. intros b k0 Hb Hk. rewrite P3. unfold printed_element.
        destruct (Nat.eqb_spec (s_bi s') (s_ki s')) as [Ed|Ed]; cbn [andb].
        + pose proof (proj2 Hc1 Ed) as Es. destruct (Nat.ltb_spec k0 b); apply C3; unfold held; rewrite Es in *; lia.
        + apply C3. unfold held. lia.
      - apply (IH _ _ (S k)); [assumption|assumption| | |assumption]; intros i; rewrite Nat.add_succ_comm; [apply (H1 (S i))|apply (H2 (S i))]. }
    apply (G ss ws ms 0); auto.
Qed.
(** a version-15200 file that has been cut *)
Theorem truncated_found : env_ok E -> forall ix ws data n name text, indexing_ok E ix -> scheme E V15200 ix -> Forall2 (fits_sector E) (ix_sectors E ix) ws ->
  write_file_bin E V15200 ix (whole_operator E ws) = Ok data -> deduced_io_mode name = Ok KBinary ->
  length data - 4 * list_sum (map count_held (ix_sectors E ix)) <= n -> n < length data -> disk name = Some (firstn n data, text) ->
  (forall args, asks args "header" name -> h2stat E disk args = Ok (RHeader ix))
  /\ (forall args, asks args "verify" name -> h2stat E disk args = Exit) /\ (forall args, asks args "matrices" name -> h2stat E disk args = Exit).
Proof.
  intros He ix ws data n name text Hi Hs Hf Hw Hn Hlo Hhi Hd. destruct (truncated_15200 E He ix ws data n Hi Hs Hf Hw Hlo) as (st & Ho & Hix & Hx).
  pose proof (open_bin_file name _ text st Hn Ho) as Hof.
  set (ss := ix_sectors E ix) in *. set (hd := length data - 4 * list_sum (map count_held ss)) in *.
  assert (F : exists i s, nth_error ss i = Some s /\ 0 < count_held s /\ n < hd + 4 * list_sum (map count_held (firstn (i + 1) ss))).
  { assert (G : n < hd + 4 * list_sum (map count_held ss)) by (unfold hd in *; lia). clear -G Hlo.
    assert (K : forall a, a <= length ss -> n < hd + 4 * list_sum (map count_held (firstn a ss)) -> exists i s, nth_error ss i = Some s /\ 0 < count_held s /\ n < hd + 4 * list_sum (map count_held (firstn (i + 1) ss))).
    { induction a as [|a IH]; intros La H; [cbn in H; lia|]. destruct (nth_error ss a) as [s|] eqn:Es; [|apply nth_error_None in Es; lia].
      assert (Ef : firstn (S a) ss = firstn a ss ++ [s]).
      { clear -Es. revert Es. generalize ss. induction a as [|a IHa]; intros [|x l] Hs; try discriminate Hs; cbn in Hs; [injection Hs as ->; reflexivity|]. cbn [firstn app]. f_equal. apply IHa. exact Hs. }
      destruct (Nat.eq_dec (count_held s) 0) as [Z0|Z0].
      - apply IH; [lia|]. rewrite Ef, map_app, list_sum_app in H. cbn [map list_sum fold_right] in H. rewrite Z0 in H. lia.
      - exists a, s. split; [exact Es|]. split; [lia|]. rewrite Nat.add_1_r. exact H. }
    apply (K (length ss)); [lia|]. rewrite firstn_all. exact G. }
  destruct F as (i & s & Es & Hp & Hlt).
  assert (Hra : reads_any E (inl st) (seq 0 (length ss)) = Exit).
  { rewrite reads_any_bin. rewrite (Hx (seq 0 (length ss)) i s); [reflexivity| | | | |]; auto.
    - apply Forall_forall. intros j Hj. apply in_seq in Hj. fold ss. lia.
    - apply in_seq. split; [lia|]. apply nth_error_Some. congruence. }
  split; [|split]; intros args Ha; apply arguments_mode in Ha; unfold h2stat; rewrite Ha, Hd, Hof; cbn [bind String.eqb Ascii.eqb Bool.eqb any_ix]; rewrite Hix; [reflexivity| |]; rewrite scan_reads; fold ss; rewrite Hra; reflexivity.
Qed.
End Final.

(** ** what the scan does not find *)
Local Open Scope string_scope.
Local Open Scope list_scope.
Definition stat_data : list Z := match write_file_bin ex_env V15200 ix1 (whole_operator ex_env (ex_ws CNone ix1)) with Ok d => d | _ => [] end.
Definition one_disk (d : list Z) : string -> option (list Z * tfile ex_env) := fun name => if String.eqb name "a.bin" then Some (d, no_text) else None.
Definition verified (d : list Z) : option nat := match h2stat ex_env (one_disk d) ["--verify"; "a.bin"] with Ok (RVerified _ n) => Some n | _ => None end.
Lemma verified_some : forall d n, verified d = Some n -> exists ix' m, h2stat ex_env (one_disk d) ["--verify"; "a.bin"] = Ok (RVerified ix' m).
Proof. intros d n. unfold verified. destruct (h2stat ex_env (one_disk d) _) as [[]| | |]; try discriminate. eauto. Qed.
Lemma stat_written : write_file_bin ex_env V15200 ix1 (whole_operator ex_env (ex_ws CNone ix1)) = Ok stat_data.
Proof.
  unfold stat_data. assert (H : match write_file_bin ex_env V15200 ix1 (whole_operator ex_env (ex_ws CNone ix1)) with Ok _ => true | _ => false end = true) by (vm_compute; reflexivity).
  destruct (write_file_bin ex_env V15200 ix1 _); [reflexivity|discriminate..].
Qed.
Lemma longer_accepted : exists E disk ix ws data extra, write_file_bin E V15200 ix (whole_operator E ws) = Ok data /\ extra <> [] /\ disk "a.bin" = Some (data ++ extra, TFile E [] true)
  /\ exists ix' n, h2stat E disk ["--verify"; "a.bin"] = Ok (RVerified ix' n).
Proof.
  exists ex_env, (one_disk (stat_data ++ [1; 2; 3]%Z)), ix1, (ex_ws CNone ix1), stat_data, [1; 2; 3]%Z.
  split; [exact stat_written|]. split; [discriminate|]. split; [reflexivity|]. apply (verified_some _ 10). vm_compute. reflexivity.
Qed.
Definition altered : list Z := firstn 264 stat_data ++ [45; 36; 0; 0]%Z.
Lemma altered_accepted : exists E disk ix ws data data', write_file_bin E V15200 ix (whole_operator E ws) = Ok data /\ length data' = length data /\ data' <> data /\ disk "a.bin" = Some (data', TFile E [] true)
  /\ exists ix' n, h2stat E disk ["--verify"; "a.bin"] = Ok (RVerified ix' n).
Proof.
  exists ex_env, (one_disk altered), ix1, (ex_ws CNone ix1), stat_data, altered.
  split; [exact stat_written|]. split; [vm_compute; reflexivity|]. split; [vm_compute; discriminate|]. split; [reflexivity|]. apply (verified_some _ 10). vm_compute. reflexivity.
Qed.
(** ** the command line *)
Lemma mode_alone : forall E (disk : string -> option (list Z * tfile E)) mode r, In mode modes -> h2stat E disk ["--" ++ mode]%string <> Ok r.
Proof.
  intros E disk mode r H C. destruct H as [<-|[<-|[<-|[<-|[<-|[]]]]]];
    unfold h2stat in C; cbn [h2stat_arguments append String.eqb Ascii.eqb Bool.eqb] in C; match type of C with context [disk ?n] => destruct (disk n) as [[data text]|] end; discriminate.
Qed.
Lemma arguments_case : h2stat_arguments [] = AskUsage /\ h2stat_arguments ["--help"; "a.bin"] = AskUsage /\ h2stat_arguments ["a.bin"] = AskMode "header" "a.bin"
  /\ h2stat_arguments ["--verify"; "a.bin"; "b.bin"] = AskMode "verify" "a.bin" /\ h2stat_arguments ["a.bin"; "--verify"] = AskNothing /\ h2stat_arguments ["--verify"] = AskMode "header" "--verify"
  /\ h2stat_arguments ["--header"; "--help"] = AskMode "header" "--help".
Proof. repeat split. Qed.
Definition header_sectors (d : list Z) : option nat := match h2stat ex_env (one_disk d) ["a.bin"] with Ok (RHeader ix) => Some (length (ix_sectors ex_env ix)) | _ => None end.
Definition refused (d : list Z) (args : list string) : bool := match h2stat ex_env (one_disk d) args with Exit => true | _ => false end.
Lemma verify_case : length stat_data = 268 /\ list_sum (map count_held (ix_sectors ex_env ix1)) = 20 /\ verified stat_data = Some 10
  /\ refused (firstn 267 stat_data) ["--verify"; "a.bin"] = true
  /\ refused (firstn 188 stat_data) ["--verify"; "a.bin"] = true
  /\ header_sectors (firstn 188 stat_data) = Some 10
  /\ refused stat_data ["--verify"; "b.bin"] = true /\ refused stat_data ["--verified"; "a.bin"] = true.
Proof. vm_compute. auto 9. Qed.
Definition scalar_data : list Z := match write_file_bin ex_env V15200 ix0 (whole_operator ex_env (ex_ws CNone ix0)) with Ok d => d | _ => [] end.
Definition shown_elements : option (list (bool * nat * nat * list Z)) :=
  match h2stat ex_env (one_disk scalar_data) ["--matrices"; "a.bin"] with
  | Ok (RMatrices _ rs) => Some (map (fun q => (Nat.eqb (s_bi (fst q)) (s_ki (fst q)), rows (snd q), cols (snd q), map (fun p => at_ (snd q) (fst p) (snd p)) (list_prod (seq 0 (rows (snd q))) (seq 0 (cols (snd q)))))) rs)
  | _ => None
  end.
Lemma matrices_case : option_map (fun l => nth_error l 2) shown_elements = Some (Some (true, 2, 2, [1960; 1970; 1970; 2070]%Z))
  /\ option_map (fun l => nth_error l 7) shown_elements = Some (Some (true, 4, 4, [6960; 6970; 6980; 6990; 6970; 7070; 7080; 7090; 6980; 7080; 7180; 7190; 6990; 7090; 7190; 7290]%Z)).
Proof. split; vm_compute; reflexivity. Qed.
Lemma written_case : env_ok ex_env /\ indexing_ok ex_env ix1 /\ scheme ex_env V15200 ix1 /\ record_fits ex_env V15200 ix1 /\ Forall2 (fits_sector ex_env) (ix_sectors ex_env ix1) (ex_ws CNone ix1)
  /\ deduced_io_mode "a.bin" = Ok KBinary.
Proof. exact (conj ex_env_ok (conj (ex_indexing_ok _ _ _ _ _ _) (conj scheme1 (conj I (conj (ex_fits CNone ix1 ltac:(discriminate)) eq_refl))))). Qed.
