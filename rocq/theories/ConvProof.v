(** Proofs for C46. *)
From Coq Require Import String List ZArith Lia Bool Permutation.
From Verif Require Import Base BaseLemmas H2Model H2Spec H2Elements H2Sectors H2Access H2RoundBin H2RoundTxt H2Extra2 MapModel MapProof ConvModel ConvSpec.
Import ListNotations.
Open Scope nat_scope.
Open Scope outcome_scope.

Section Proof.
Variable E : env.
Notation D := (dbl E).

(** * reading *)
Lemma reads_any_bin : forall h s, reads_any E (inl s) h = bind (reads_bin E s h) (fun x => Ok (fst x)).
Proof.
  induction h as [|i h IH]; intros s; [reflexivity|]. unfold reads_bin. cbn [reads_any read_any read_history].
  destruct (read_sector E bstate _ b_fail b_tell b_seek _ _ i (is_state E bstate s)) as [[m x]| | |]; try reflexivity. cbn [bind fst snd].
  rewrite IH. unfold reads_bin. cbn [is_ix is_fmt is_state].
  destruct (read_history E bstate _ b_fail b_tell b_seek _ _ h x) as [[ms y]| | |]; reflexivity.
Qed.
Lemma reads_any_txt : forall h s, reads_any E (inr s) h = bind (reads_txt E s h) (fun x => Ok (fst x)).
Proof.
  induction h as [|i h IH]; intros s; [reflexivity|]. unfold reads_txt. cbn [reads_any read_any read_history].
  destruct (read_sector E (tstate E) _ (t_fail E) (t_tell E) (t_seek E) _ _ i (is_state E (tstate E) s)) as [[m x]| | |]; try reflexivity. cbn [bind fst snd].
  rewrite IH. unfold reads_txt. cbn [is_ix is_fmt is_state].
  destruct (read_history E (tstate E) _ (t_fail E) (t_tell E) (t_seek E) _ _ h x) as [[ms y]| | |]; reflexivity.
Qed.

(** what a sector read from a file looks like *)
Definition shape (s : sector) (m : mat D) : Prop :=
  rows m = length (ss_states (s_bra s)) /\ cols m = length (ss_states (s_ket s))
  /\ (forall b k, ~ held s b k -> at_ m b k = d0 E) /\ (forall b k, held s b k -> exists x, at_ m b k = widen E x).
Lemma loop_bin_shape : forall l buffer m i m' i', loop2 l (fun b k '(m, i) => bind (get (nth_error buffer i)) (fun x => Ok (mset m b k (widen E x), i + 1))) (m, i) = Ok (m', i') ->
  rows m' = rows m /\ cols m' = cols m /\ (forall b k, ~ In (b, k) l -> at_ m' b k = at_ m b k)
  /\ (forall b k, In (b, k) l -> exists x, at_ m' b k = widen E x).
Proof.
  induction l as [|[b0 k0] l IH]; intros buffer m i m' i' H.
  - cbn in H. injection H as <- <-. repeat split. intros b k [].
  - cbn [loop2] in H. destruct (nth_error buffer i) as [x|]; [|discriminate]. cbn [get bind] in H.
    destruct (IH _ _ _ _ _ H) as (R & C & N & I0). split; [exact R|]. split; [exact C|]. split.
    + intros b k Hn. rewrite N by (intros Hi; apply Hn; right; exact Hi). unfold mset; cbn [at_].
      destruct (Nat.eqb_spec b b0) as [->|]; [|reflexivity]. destruct (Nat.eqb_spec k k0) as [->|]; [|reflexivity]. elim Hn. left. reflexivity.
    + intros b k Hi. destruct (in_dec (fun p q : nat * nat => ltac:(decide equality; apply Nat.eq_dec)) (b, k) l) as [Hl|Hl]; [apply I0; exact Hl|].
      destruct Hi as [Hi|Hi]; [|contradiction]. injection Hi as <- <-. exists x. rewrite N by exact Hl. unfold mset; cbn [at_]. rewrite !Nat.eqb_refl. reflexivity.
Qed.
Lemma rd_bin_shape : forall f ix i st m st', rd_bin E f ix i st = Ok (m, st') -> exists s, nth_error (ix_sectors E ix) i = Some s /\ shape s m.
Proof.
  intros f ix i st m st' H. apply rd_bin_inv in H. destruct H as (s & vf & bf & bl & s1 & buf & s2 & Hs & _ & _ & _ & _ & _ & _ & _ & H & _).
  exists s. split; [exact Hs|]. rewrite rd_loop_bin_filter in H. apply bind_ok in H. destruct H as ([m' i'] & H & Em). injection Em as <-.
  destruct (loop_bin_shape _ _ _ _ _ _ H) as (R & C & N & I0). split; [exact R|]. split; [exact C|]. split.
  - intros b k Hh. rewrite N; [reflexivity|]. rewrite in_elems. exact Hh.
  - intros b k Hh. apply I0, in_elems, Hh.
Qed.
Lemma rd_txt_shape : forall f ix i st m st', rd_txt E f ix i st = Ok (m, st') -> exists s, nth_error (ix_sectors E ix) i = Some s /\ shape s m.
Proof.
  intros f ix i st m st' H. apply rd_txt_inv in H. destruct H as (s & Hs & _ & _ & H). exists s. split; [exact Hs|].
  rewrite rd_loop_txt_filter in H. apply rd_loop_lines in H; [|apply NoDup_elems]. destruct H as (A & N & R & C).
  split; [exact R|]. split; [exact C|]. split.
  - intros b k Hh. rewrite N; [reflexivity|]. rewrite in_elems. exact Hh.
  - intros b k Hh. apply in_elems, In_nth_error in Hh. destruct Hh as (j & Hj). destruct (A j b k Hj) as (ln & x & _ & _ & Hx). exists x. exact Hx.
Qed.

Lemma seq_nth_error : forall n i, i < n -> nth_error (seq 0 n) i = Some i.
Proof. intros n i H. rewrite nth_error_nth' with (d := 0) by (rewrite seq_length; exact H). rewrite seq_nth by exact H. reflexivity. Qed.

Lemma holds_shape : forall name data file st ms, holds E name data file st ms -> Forall canonical_sector (ix_sectors E (any_ix E st)) ->
  length ms = length (ix_sectors E (any_ix E st))
  /\ forall i s m, nth_error (ix_sectors E (any_ix E st)) i = Some s -> nth_error ms i = Some m -> shape s m.
Proof.
  intros name data file st ms (Ho & Hnl & Hr) Hc. unfold open_file in Ho. apply bind_ok in Ho. destruct Ho as (md & _ & Ho).
  assert (G : forall n (P : nat -> mat D -> Prop), Forall2 P (seq 0 n) ms -> length ms = n /\ forall i m, nth_error ms i = Some m -> P i m).
  { intros n P F. split.
    - assert (L : forall A B (Q : A -> B -> Prop) l l', Forall2 Q l l' -> length l = length l') by (intros A B Q l l' FF; induction FF; cbn; congruence).
      rewrite <- (L _ _ _ _ _ F). apply seq_length.
    - intros i m Hm. assert (Hi : i < n).
      { assert (i < length ms) by (apply nth_error_Some; congruence).
        assert (L : forall A B (Q : A -> B -> Prop) l l', Forall2 Q l l' -> length l = length l') by (intros A B Q l l' FF; induction FF; cbn; congruence).
        pose proof (L _ _ _ _ _ F) as LL. rewrite seq_length in LL. lia. }
      destruct (Forall2_nth_l _ _ _ _ _ _ _ F (seq_nth_error n i Hi)) as (m' & Hm' & Hp). congruence. }
  destruct md; [| |discriminate]; apply bind_ok in Ho; destruct Ho as (s & Ho & Es); injection Es as <-; cbn [any_ix] in *.
  - rewrite reads_any_txt in Hr. apply bind_ok in Hr. destruct Hr as ([ms' y] & Hr & Em). injection Em as <-. cbn [fst].
    unfold reads_txt in Hr. apply bind_ok in Hr. destruct Hr as ([ms2 st2] & Hr & E2). injection E2 as -> _. cbn [fst] in G.
    set (n := length (ix_sectors E (is_ix E (tstate E) s))) in *.
    destruct (open_txt_state _ _ _ Ho) as (p & [Hs|[Hne Hf]]).
    + rewrite Hs in Hr. pose proof (inv_txt_init E (is_ix E _ s) file p) as Hi. apply (txt_det _ _ _ _ _ Hc _ _ _ _ Hi) in Hr. destruct Hr as [_ Hr].
      destruct (G n _ Hr) as [G1 G2]. split; [exact G1|]. intros i x m Hx Hm. destruct (G2 i m Hm) as (_ & s' & Hrd & _).
      apply rd_txt_shape in Hrd. destruct Hrd as (x' & Hx' & Hsh). rewrite Hx in Hx'. injection Hx' as <-. exact Hsh.
    + pose proof (read_history_failed_txt E _ _ Hc _ _ _ _ Hf Hne Hr) as Hn. rewrite Hn in Hr. cbn in Hr. injection Hr as <- _.
      assert (n = 0) by (destruct n; [reflexivity|discriminate]). split; [cbn; lia|]. intros [|i] x m _ Hm; discriminate.
  - rewrite reads_any_bin in Hr. apply bind_ok in Hr. destruct Hr as ([ms' y] & Hr & Em). injection Em as <-. cbn [fst].
    unfold reads_bin in Hr. apply bind_ok in Hr. destruct Hr as ([ms2 st2] & Hr & E2). injection E2 as -> _. cbn [fst] in G.
    set (n := length (ix_sectors E (is_ix E bstate s))) in *.
    destruct (open_bin_state _ _ _ Ho) as (p & [Hs|[Hne Hf]]).
    + rewrite Hs in Hr. pose proof (inv_bin_init E (is_fmt E bstate s) (is_ix E _ s) data p) as Hi. apply (bin_det _ _ _ _ _ _ _ _ _ Hi) in Hr. destruct Hr as [_ Hr].
      destruct (G n _ Hr) as [G1 G2]. split; [exact G1|]. intros i x m Hx Hm. destruct (G2 i m Hm) as (_ & s' & Hrd & _).
      apply rd_bin_shape in Hrd. destruct Hrd as (x' & Hx' & Hsh). rewrite Hx in Hx'. injection Hx' as <-. exact Hsh.
    + pose proof (read_history_failed_bin E _ _ _ _ _ _ Hf Hne Hr) as Hn. rewrite Hn in Hr. cbn in Hr. injection Hr as <- _.
      assert (n = 0) by (destruct n; [reflexivity|discriminate]). split; [cbn; lia|]. intros [|i] x m _ Hm; discriminate.
Qed.
Lemma holds_progress : forall name data file st ms, holds E name data file st ms -> Forall canonical_sector (ix_sectors E (any_ix E st)) ->
  forall h, Forall (fun i => i < length (ix_sectors E (any_ix E st))) h -> reads_any E st h = Ok (map (fun i => nth i ms (mzero (d0 E) 0 0)) h).
Proof.
  intros name data file st ms (Ho & Hnl & Hr) Hc h Hh. unfold open_file in Ho. apply bind_ok in Ho. destruct Ho as (md & _ & Ho).
  destruct md; [| |discriminate]; apply bind_ok in Ho; destruct Ho as (s & Ho & Es); injection Es as <-; cbn [any_ix] in *.
  - rewrite reads_any_txt in *. apply bind_ok in Hr. destruct Hr as ([ms' y] & Hr & Em). injection Em as <-. cbn [fst].
    destruct (txt_history_progress E file s ms' y Ho Hnl Hc Hr h Hh) as (st2 & ->). reflexivity.
  - rewrite reads_any_bin in *. apply bind_ok in Hr. destruct Hr as ([ms' y] & Hr & Em). injection Em as <-. cbn [fst].
    destruct (bin_history_progress E data s ms' y Ho Hr h Hh) as (st2 & ->). reflexivity.
Qed.
Lemma read_any_ix : forall st i m st', read_any E st i = Ok (m, st') -> any_ix E st' = any_ix E st.
Proof. intros [s|s] i m st' H; cbn [read_any] in H; apply bind_ok in H; destruct H as ([m' x] & _ & H); injection H as _ <-; reflexivity. Qed.

(** * the loop *)
Fixpoint write_all (ost : any_out E) (ws : list (nat * mat D * conversion)) : outcome (any_out E) :=
  match ws with [] => Ok ost | w :: ws' => o <- write_any E ost w ;; write_all o ws' end.
Lemma conv_loop_split : forall out (idx : nat -> nat) h ist ost ms ost',
  (forall si, In si h -> exists s, nth_error (ix_sectors E out) si = Some s /\ input_sector E (any_ix E ist) s = Some (idx si)) ->
  reads_any E ist (map idx h) = Ok ms ->
  write_all ost (combine (combine h ms) (repeat CNone (length h))) = Ok ost' -> conv_loop E out h ist ost = Ok ost'.
Proof.
  intros out idx h. induction h as [|si h IH]; intros ist ost ms ost' Hx Hr Hw.
  - cbn in *. exact Hw.
  - cbn [map reads_any] in Hr. apply bind_ok in Hr. destruct Hr as ([m ist'] & Hm & Hr). apply bind_ok in Hr. destruct Hr as (ms' & Hr & Em). injection Em as <-.
    cbn [fst snd] in *. cbn [combine length repeat write_all] in Hw. apply bind_ok in Hw. destruct Hw as (o & Ho & Hw).
    destruct (Hx si (or_introl eq_refl)) as (s & Hs & Hi). cbn [conv_loop]. rewrite Hs. cbn [get bind]. rewrite Hi. cbn [bind]. rewrite Hm. cbn [bind].
    rewrite Ho. cbn [bind]. apply (IH ist' o ms' ost'); auto.
    intros sj Hj. rewrite (read_any_ix _ _ _ _ Hm). apply Hx. right. exact Hj.
Qed.
Lemma write_all_bin : forall ws s s', write_history E (write_sector_bin E) ws s = Ok s' -> write_all (OBin E s) ws = Ok (OBin E s').
Proof.
  induction ws as [|w ws IH]; intros s s' H; cbn in *; [injection H as <-; reflexivity|]. apply bind_ok in H. destruct H as (s1 & H1 & H).
  rewrite H1. cbn [bind]. apply IH. exact H.
Qed.
Lemma write_all_txt : forall ws s s', write_history E (write_sector_txt E) ws s = Ok s' -> write_all (OTxt E s) ws = Ok (OTxt E s').
Proof.
  induction ws as [|w ws IH]; intros s s' H; cbn in *; [injection H as <-; reflexivity|]. apply bind_ok in H. destruct H as (s1 & H1 & H).
  rewrite H1. cbn [bind]. apply IH. exact H.
Qed.

(** * corresponding sectors *)
Lemma in_reordered : forall ix ix' i' s', reordered E ix ix' -> nth_error (ix_sectors E ix') i' = Some s' ->
  exists i s, nth_error (ix_sectors E ix) i = Some s /\ same_ends s s'.
Proof.
  intros ix ix' i' s' Hp Hs. assert (Hin : In (s_bra s', s_ket s') (map (fun s => (s_bra s, s_ket s)) (ix_sectors E ix))).
  { eapply Permutation_in; [apply Permutation_sym, Hp|]. apply in_map_iff. exists s'. split; [reflexivity|]. eapply nth_error_In; eassumption. }
  apply in_map_iff in Hin. destruct Hin as (s & Es & Hin). apply In_nth_error in Hin. destruct Hin as (i & Hi). exists i, s. split; [exact Hi|].
  injection Es as E1 E2. split; assumption.
Qed.
Lemma input_sector_ok : forall ix i s s', library_indexing E ix -> nth_error (ix_sectors E ix) i = Some s -> same_ends s s' -> input_sector E ix s' = Some i.
Proof.
  intros ix i s s' [L S0 N _] Hs [Eb Ek]. unfold input_sector. rewrite <- Eb, <- Ek. rewrite Forall_forall in S0.
  destruct (S0 s (nth_error_In _ _ Hs)) as [B K].
  rewrite (lookup_nth _ labels_eqb_ok _ (sub_labels (s_bra s)) (s_bi s) L) by (rewrite nth_error_map, B; reflexivity).
  rewrite (lookup_nth _ labels_eqb_ok _ (sub_labels (s_ket s)) (s_ki s) L) by (rewrite nth_error_map, K; reflexivity).
  apply (lookup_nth _ pair_eqb_ok _ _ i N). rewrite nth_error_map, Hs. reflexivity.
Qed.
Lemma diag_ends : forall ix s, library_indexing E ix -> In s (ix_sectors E ix) -> s_bi s = s_ki s <-> s_bra s = s_ket s.
Proof.
  intros ix s [L S0 N C] Hs. rewrite Forall_forall in S0, C. destruct (S0 s Hs) as [B K]. split; [apply (C s Hs)|]. intros H.
  apply (proj1 (NoDup_nth_error _) L).
  - rewrite map_length. apply nth_error_Some. congruence.
  - rewrite !nth_error_map, B, K, H. reflexivity.
Qed.
Lemma same_held : forall ix ix' s s' b k, library_indexing E ix -> library_indexing E ix' -> In s (ix_sectors E ix) -> In s' (ix_sectors E ix') ->
  same_ends s s' -> held s b k <-> held s' b k.
Proof.
  intros ix ix' s s' b k L L' Hs Hs' [Eb Ek]. unfold held. rewrite (diag_ends ix s L Hs), (diag_ends ix' s' L' Hs'), Eb, Ek. reflexivity.
Qed.
Lemma no_counterpart : forall ix s', (forall s, In s (ix_sectors E ix) -> ~ same_ends s s') ->
  library_indexing E ix -> (forall x, In x (ix_space E ix) -> sub_labels x = sub_labels (s_bra s') -> x = s_bra s') ->
  (forall x, In x (ix_space E ix) -> sub_labels x = sub_labels (s_ket s') -> x = s_ket s') -> input_sector E ix s' = None.
Proof.
  intros ix s' Hno [L S0 N _] Hb Hk. unfold input_sector.
  destruct (lookup labels_eqb _ (sub_labels (s_bra s'))) as [b|] eqn:Eb; [|reflexivity].
  destruct (lookup labels_eqb _ (sub_labels (s_ket s'))) as [k|] eqn:Ek; [|reflexivity].
  destruct (lookup pair_eqb _ (b, k)) as [i|] eqn:Ei; [|reflexivity]. exfalso.
  apply (lookup_some _ labels_eqb_ok) in Eb, Ek. apply (lookup_some _ pair_eqb_ok) in Ei. rewrite nth_error_map in Eb, Ek, Ei.
  destruct (nth_error (ix_space E ix) b) as [xb|] eqn:Xb; [|discriminate]. destruct (nth_error (ix_space E ix) k) as [xk|] eqn:Xk; [|discriminate].
  destruct (nth_error (ix_sectors E ix) i) as [s|] eqn:Xs; [|discriminate]. cbn in *. injection Ei as <- <-.
  rewrite Forall_forall in S0. destruct (S0 s (nth_error_In _ _ Xs)) as [B K]. apply (Hno s (nth_error_In _ _ Xs)). split.
  - apply Hb; [eapply nth_error_In; exact B|congruence].
  - apply Hk; [eapply nth_error_In; exact K|congruence].
Qed.

(** * the program *)
Section Main.
Variables (name out_name : string) (data : list Z) (file : tfile E) (st : any_in E) (ms : list (mat D)) (code : Z) (f : format).
Notation ix := (any_ix E st).
Notation ix' := (conv_indexing E (any_ix E st) f).
Hypothesis Hh : holds E name data file st ms.
Hypothesis Hlib : library_indexing E ix.
Hypothesis Hlib' : library_indexing E ix'.
Hypothesis Hre : reordered E ix ix'.
Hypothesis Hf : format_of_code code = Ok f.

Let n := length (ix_sectors E ix).
Let idx (i' : nat) : nat := match nth_error (ix_sectors E ix') i' with Some s' => match input_sector E ix s' with Some i => i | None => 0 end | None => 0 end.
Let ms' := map (fun i' => nth (idx i') ms (mzero (d0 E) 0 0)) (seq 0 n).
Let ws := map (fun m => (m, CNone)) ms'.

Lemma n_eq : length (ix_sectors E ix') = n.
Proof. unfold n. pose proof (Permutation_length Hre) as H. rewrite !map_length in H. congruence. Qed.
Lemma idx_ok : forall i' s', nth_error (ix_sectors E ix') i' = Some s' ->
  exists s, nth_error (ix_sectors E ix) (idx i') = Some s /\ same_ends s s' /\ input_sector E ix s' = Some (idx i').
Proof.
  intros i' s' Hs. destruct (in_reordered _ _ _ _ Hre Hs) as (i & s & Hi & He). pose proof (input_sector_ok _ _ _ _ Hlib Hi He) as Hx.
  unfold idx. unfold idx. rewrite Hs, Hx. exists s. auto.
Qed.
Lemma ms'_nth : forall i' s', nth_error (ix_sectors E ix') i' = Some s' -> exists s m, nth_error (ix_sectors E ix) (idx i') = Some s
  /\ nth_error ms (idx i') = Some m /\ nth_error ms' i' = Some m /\ same_ends s s' /\ shape s m.
Proof.
  intros i' s' Hs. destruct (idx_ok _ _ Hs) as (s & Hi & He & _). destruct (holds_shape _ _ _ _ _ Hh (li_canonical E ix Hlib)) as [L Sh].
  assert (Li : idx i' < n) by (apply nth_error_Some; congruence).
  destruct (nth_error ms (idx i')) as [m|] eqn:Em; [|apply nth_error_None in Em; unfold n in *; lia].
  assert (Li' : i' < n) by (rewrite <- n_eq; apply nth_error_Some; congruence).
  exists s, m. split; [exact Hi|]. split; [reflexivity|]. split; [|split; [exact He|eapply Sh; eassumption]].
  unfold ms'. rewrite nth_error_map, seq_nth_error by exact Li'. cbn. f_equal. apply nth_error_nth. exact Em.
Qed.
Lemma ws_fit : Forall2 (fits_sector E) (ix_sectors E ix') ws.
Proof.
  assert (G : forall A B (P : A -> B -> Prop) l l', length l = length l' -> (forall i x y, nth_error l i = Some x -> nth_error l' i = Some y -> P x y) -> Forall2 P l l').
  { intros A B P. induction l as [|x l IH]; intros [|y l'] HL HP; cbn in HL; try discriminate; constructor; [apply (HP 0); reflexivity|].
    apply IH; [congruence|]. intros i. apply (HP (S i)). }
  apply G.
  - unfold ws, ms'. rewrite !map_length, seq_length. apply n_eq.
  - intros i' s' w Hs Hw. destruct (ms'_nth _ _ Hs) as (s & m & _ & _ & Hm & [Eb Ek] & (R & C & _)). unfold ws in Hw. rewrite nth_error_map, Hm in Hw.
    injection Hw as <-. unfold fits_sector. cbn [fst snd]. rewrite <- Eb, <- Ek. split; [exact R|]. split; [exact C|discriminate].
Qed.
Lemma whole_ws : whole_operator E ws = combine (combine (seq 0 n) ms') (repeat CNone (length (seq 0 n))).
Proof.
  unfold whole_operator, ws. rewrite !map_map, map_length. cbn [fst snd]. rewrite map_id.
  assert (L : length ms' = n) by (unfold ms'; rewrite map_length, seq_length; reflexivity). rewrite L, seq_length. f_equal.
  clear. unfold ms'. rewrite map_map. generalize n. intros k. generalize 0 at 1. induction k as [|k IH]; intros a; [reflexivity|]. cbn. f_equal. apply IH.
Qed.
Lemma loop_ok : forall ost ost', write_all ost (whole_operator E ws) = Ok ost' -> conv_loop E ix' (seq 0 n) st ost = Ok ost'.
Proof.
  intros ost ost' Hw. rewrite whole_ws in Hw. apply (conv_loop_split ix' idx (seq 0 n) st ost ms' ost'); [| |exact Hw].
  - intros si Hsi. apply in_seq in Hsi. destruct (nth_error (ix_sectors E ix') si) as [s'|] eqn:Hs.
    2: { apply nth_error_None in Hs. rewrite n_eq in Hs. lia. }
    destruct (idx_ok _ _ Hs) as (s & _ & _ & Hi). exists s'. auto.
  - unfold ms'. rewrite (holds_progress _ _ _ _ _ Hh (li_canonical E ix Hlib)); [rewrite map_map; reflexivity|].
    apply Forall_forall. intros i Hi. apply in_map_iff in Hi. destruct Hi as (i' & <- & Hi'). apply in_seq in Hi'.
    destruct (nth_error (ix_sectors E ix') i') as [s'|] eqn:Hs; [|apply nth_error_None in Hs; rewrite n_eq in Hs; lia].
    destruct (idx_ok _ _ Hs) as (s & Hi & _). apply nth_error_Some. congruence.
Qed.
Lemma nas_none : forall s b k, nas_factor E CNone s b k = d1 E.
Proof. reflexivity. Qed.

Notation conv_result := (conv_result E st ms f).
Lemma result_ok : forall via i' r s' m0 c0, nth_error (ix_sectors E ix') i' = Some s' -> nth_error ws i' = Some (m0, c0) -> reads_back E via c0 s' m0 r -> conv_result via i' r.
Proof.
  intros via i' r s' m0 c0 Hs Hw (R & C & V & Z0). destruct (ms'_nth _ _ Hs) as (s & m & Hi & Hm & Hm' & He & (R' & C' & Z' & _)).
  unfold ws in Hw. rewrite nth_error_map, Hm' in Hw. injection Hw as <- <-.
  exists s', (idx i'), s, m. destruct He as [Eb Ek]. split; [exact Hs|]. split; [exact Hi|]. split; [split; assumption|]. split; [exact Hm|].
  split; [congruence|]. split; [congruence|]. split.
  - intros b k Hd. rewrite (V b k Hd). reflexivity.
  - intros b k Hd. rewrite (Z0 b k Hd). symmetry. apply Z'. intros Hd'. apply Hd.
    apply (same_held ix ix' s s' b k Hlib Hlib' (nth_error_In _ _ Hi) (nth_error_In _ _ Hs) (conj Eb Ek)). exact Hd'.
Qed.
Lemma Forall2_impl_nth : forall (h : list nat) (rs : list (mat D)) (P Q : nat -> mat D -> Prop), (forall i r, P i r -> Q i r) -> Forall2 P h rs -> Forall2 Q h rs.
Proof. intros h rs P Q H F. induction F; constructor; auto. Qed.

Lemma to_binary : env_ok E -> deduced_io_mode out_name = Ok KBinary -> indexing_ok E ix' -> scheme E f ix' -> record_fits E f ix' ->
  exists d, h2conv E code name data file out_name = Ok (Bytes E d)
  /\ exists st', open_bin E d = Ok st' /\ is_fmt E bstate st' = f /\ is_ix E bstate st' = ix'
  /\ forall h, Forall (fun i => i < length (ix_sectors E ix')) h -> exists rs st'', reads_bin E st' h = Ok (rs, st'') /\ Forall2 (conv_result via_binary) h rs.
Proof.
  intros Henv Hmode Hok Hsch Hrec. destruct (binary_round_trip E Henv f ix' ws Hok Hsch Hrec ws_fit) as (d & Hw & st' & Ho & Ef & Ex & Hr).
  exists d. split.
  - unfold h2conv. destruct Hh as (-> & _ & _). cbn [bind]. rewrite Hf. cbn [bind]. unfold create_any. rewrite Hmode. cbn [bind].
    unfold write_file_bin in Hw. apply bind_ok in Hw. destruct Hw as (s0 & Hc & Hw). rewrite Hc. cbn [bind].
    apply bind_ok in Hw. destruct Hw as (s1 & Hw & Ed). injection Ed as <-.
    pose proof (loop_ok (OBin E s0) (OBin E s1) (write_all_bin _ _ _ Hw)) as Hl. unfold n in Hl. rewrite Hl. reflexivity.
  - exists st'. split; [exact Ho|]. split; [exact Ef|]. split; [exact Ex|]. intros h Hin. destruct (Hr h Hin) as (rs & st'' & Hrs & F).
    exists rs, st''. split; [exact Hrs|]. eapply Forall2_impl_nth; [|exact F]. intros i r (s & m & c & Hs & Hm & Hb). eapply result_ok; eassumption.
Qed.
Lemma to_text : env_ok E -> deduced_io_mode out_name = Ok KText -> indexing_ok E ix' -> text_scheme E f ix' ->
  Forall (labels_fit (length (ix_p E ix'))) (ix_sectors E ix') ->
  (forall i' s' i s m, nth_error (ix_sectors E ix') i' = Some s' -> nth_error (ix_sectors E ix) i = Some s -> same_ends s s' -> nth_error ms i = Some m -> prints E CNone s' m) ->
  exists t, h2conv E code name data file out_name = Ok (Lines E t)
  /\ exists st', open_txt E t = Ok st' /\ is_fmt E (tstate E) st' = f /\ is_ix E (tstate E) st' = ix'
  /\ forall h, Forall (fun i => i < length (ix_sectors E ix')) h -> exists rs st'', reads_txt E st' h = Ok (rs, st'') /\ Forall2 (conv_result (via_text E)) h rs.
Proof.
  intros Henv Hmode Hok Hsch Hlab Hpr.
  assert (HP : Forall2 (fun s w => prints E (snd w) s (fst w)) (ix_sectors E ix') ws).
  { pose proof ws_fit as F.
    assert (G : forall A B (P Q : A -> B -> Prop) l l', Forall2 P l l' -> (forall i x y, nth_error l i = Some x -> nth_error l' i = Some y -> Q x y) -> Forall2 Q l l').
    { intros A B P Q l l' F0. induction F0; intros HQ; constructor; [apply (HQ 0); reflexivity|]. apply IHF0. intros i. apply (HQ (S i)). }
    eapply G; [exact F|]. intros i' s' w Hs Hw. destruct (ms'_nth _ _ Hs) as (s & m & Hi & Hm & Hm' & He & _).
    unfold ws in Hw. rewrite nth_error_map, Hm' in Hw. injection Hw as <-. cbn [fst snd]. eapply Hpr; eassumption. }
  destruct (text_round_trip E Henv f ix' ws Hok Hsch Hlab ws_fit HP) as (d & Hw & st' & Ho & Ef & Ex & Hr).
  exists d. split.
  - unfold h2conv. destruct Hh as (-> & _ & _). cbn [bind]. rewrite Hf. cbn [bind]. unfold create_any. rewrite Hmode. cbn [bind].
    unfold write_file_txt in Hw. apply bind_ok in Hw. destruct Hw as (s0 & Hc & Hw). rewrite Hc. cbn [bind].
    apply bind_ok in Hw. destruct Hw as (s1 & Hw & Ed). injection Ed as <-.
    pose proof (loop_ok (OTxt E s0) (OTxt E s1) (write_all_txt _ _ _ Hw)) as Hl. unfold n in Hl. rewrite Hl. reflexivity.
  - exists st'. split; [exact Ho|]. split; [exact Ef|]. split; [exact Ex|]. intros h Hin. destruct (Hr h Hin) as (rs & st'' & Hrs & F).
    exists rs, st''. split; [exact Hrs|]. eapply Forall2_impl_nth; [|exact F]. intros i r (s & m & c & Hs & Hm & Hb). eapply result_ok; eassumption.
Qed.
(** the elements of the output are those of the input *)
Lemma exact_result : exact_singles E -> forall i' r, conv_result via_binary i' r ->
  exists s' i s m, nth_error (ix_sectors E ix') i' = Some s' /\ nth_error (ix_sectors E ix) i = Some s /\ same_ends s s' /\ nth_error ms i = Some m
  /\ mat_eq r m.
Proof.
  intros Hx i' r (s' & i & s & m & Hs & Hi & He & Hm & R & C & V & Z0). exists s', i, s, m. do 4 (split; [assumption|]).
  split; [exact R|]. split; [exact C|]. intros b k _ _.
  destruct (holds_shape _ _ _ _ _ Hh (li_canonical E ix Hlib)) as [_ Sh]. destruct (Sh i s m Hi Hm) as (_ & _ & _ & Sx).
  assert (Hd : held s' b k \/ ~ held s' b k).
  { unfold held. destruct (Nat.eq_dec (s_bi s') (s_ki s')), (le_lt_dec b k), (lt_dec b (length (ss_states (s_bra s')))), (lt_dec k (length (ss_states (s_ket s')))); try (right; intros (A1 & A2 & A3); lia); left; lia. }
  destruct Hd as [Hd|Hd]; [|apply Z0; exact Hd]. rewrite V by exact Hd.
  assert (Hd' : held s b k) by (apply (same_held ix ix' s s' b k Hlib Hlib' (nth_error_In _ _ Hi) (nth_error_In _ _ Hs) He); exact Hd).
  destruct (Sx b k Hd') as (x & ->). unfold copied, via_binary. apply Hx.
Qed.
End Main.
End Proof.
