(** Proofs for C120 (other outcomes), C123 (the whole program), C124 (radial-extract), C125 (radial-plot). *)
From Coq Require Import String List ZArith Reals Bool Lia Lra.
From Verif Require Import Base BaseLemmas RMat H2Model MapModel OscModel OscSpec BlockModel BlockSpec BlockProof BlockFinal ObioModel ObioProof MixModel ObmModel ObmSpec ObmProof
  ObmFinal ObmFin2 ObmFin6 NatModel NatProof NatFinal RgModel RgSpec RgProof RgBuild.
Import ListNotations.
Open Scope R_scope.

Section Program.
Variable spline : spline_me.
Variable crme : Z -> Z -> Z -> Z -> Z -> R.
Variable am_rme : am_type -> Z -> Z -> Z -> Z -> R.
Variable inv_sqrt_4pi : R.
Notation build := (build spline crme am_rme inv_sqrt_4pi).
Notation build_blocks := (build_blocks spline crme am_rme inv_sqrt_4pi).
Notation build_all := (build_all spline crme am_rme inv_sqrt_4pi).
Notation radial_gen := (radial_gen spline crme am_rme inv_sqrt_4pi).

Definition made (fs : files) (t : rtarget) : outcome rfile :=
  bind (read_orbitals fs (t_bra t)) (fun bo => bind (read_orbitals fs (t_ket t)) (fun ko =>
  let bs := mk_wspace bo in let ks := mk_wspace ko in
  bind (get (t_op t)) (fun p => let '(m, order, q) := p in
  let s := sectors_of (forget bs) (forget ks) q in
  bind (build_blocks t m order q (forget bs) (forget ks) s) (fun ms => write_rfile (RFile (is_radial m) q bs ks s ms))))).
Lemma build_made : forall fs t, build fs t = bind (made fs t) (fun f => Ok (put fs (t_out t) (FElements f))).
Proof.
  intros fs t. unfold RgModel.build, made. destruct (read_orbitals fs (t_bra t)); try reflexivity. cbn [bind]. destruct (read_orbitals fs (t_ket t)); try reflexivity. cbn [bind].
  destruct (get (t_op t)) as [[[m order] q]| | |]; try reflexivity. cbn [bind]. destruct (build_blocks _ _ _ _ _ _ _); reflexivity.
Qed.
Lemma made_frame : forall fs gs t, fs (t_bra t) = gs (t_bra t) -> fs (t_ket t) = gs (t_ket t) -> made fs t = made gs t.
Proof. intros fs gs t H1 H2. unfold made, read_orbitals. rewrite H1, H2. reflexivity. Qed.
Lemma put_same : forall fs n c, put fs n c n = Some c. Proof. intros. unfold put. rewrite String.eqb_refl. reflexivity. Qed.
Lemma put_other : forall fs n c m, m <> n -> put fs n c m = fs m. Proof. intros fs n c m H. unfold put. apply String.eqb_neq in H. rewrite H. reflexivity. Qed.
Lemma made_iff : forall fs t f, made fs t = Ok f <-> build fs t = Ok (put fs (t_out t) (FElements f)).
Proof.
  intros fs t f. rewrite build_made. split; [intros ->; reflexivity|]. destruct (made fs t) as [g| | |]; cbn; try discriminate. intros E.
  injection E as E. assert (put fs (t_out t) (FElements g) (t_out t) = put fs (t_out t) (FElements f) (t_out t)) as H by (rewrite E; reflexivity). rewrite !put_same in H. congruence.
Qed.
Theorem build_shape : forall fs t fs', build fs t = Ok fs' -> exists f, fs' = put fs (t_out t) (FElements f).
Proof. intros fs t fs'. rewrite build_made. destruct (made fs t) as [g| | |]; cbn; try discriminate. intros [= <-]. exists g. reflexivity. Qed.

(** the files after all targets *)
Lemma all_ok : forall ts fs fs0, (forall t t', In t ts -> In t' ts -> t_out t <> t_bra t' /\ t_out t <> t_ket t') ->
  (forall t, In t ts -> fs (t_bra t) = fs0 (t_bra t) /\ fs (t_ket t) = fs0 (t_ket t)) ->
  forall fs', build_all fs ts = Ok fs' ->
  (forall t, In t ts -> exists f, made fs0 t = Ok f) /\ (forall n, (forall t, In t ts -> t_out t <> n) -> fs' n = fs n)
  /\ (forall pre t post f, ts = pre ++ t :: post -> (forall t', In t' post -> t_out t' <> t_out t) -> made fs0 t = Ok f -> fs' (t_out t) = Some (FElements f)).
Proof.
  induction ts as [|t ts IH]; intros fs fs0 Ha Hf fs' E.
  - injection E as <-. split; [intros t []|]. split; [reflexivity|]. intros [|? ?] ? ? ? [=].
  - cbn [RgModel.build_all] in E. rewrite build_made in E. destruct (made fs t) as [f| | |] eqn:Em; try discriminate. cbn [bind] in E.
    assert (made fs0 t = Ok f) as Em0.
    { rewrite <- Em. symmetry. apply made_frame; apply (Hf t); left; reflexivity. }
    destruct (IH (put fs (t_out t) (FElements f)) fs0) with (fs' := fs') as (H1 & H2 & H3).
    { intros u u' Hu Hu'. apply Ha; right; assumption. }
    { intros u Hu. destruct (Ha t u (or_introl eq_refl) (or_intror Hu)) as [N1 N2]. rewrite !put_other by auto. apply Hf. right. exact Hu. }
    { exact E. }
    split; [|split].
    + intros u [<-|Hu]; [exists f; exact Em0|apply H1; exact Hu].
    + intros n Hn. rewrite H2 by (intros u Hu; apply Hn; right; exact Hu). apply put_other. intros ->. exact (Hn t (or_introl eq_refl) eq_refl).
    + intros [|p pre] u post g Ets Hlast Eg.
      * injection Ets as -> ->. rewrite H2 by exact Hlast. rewrite put_same. congruence.
      * injection Ets as -> ->. exact (H3 pre u post g eq_refl Hlast Eg).
Qed.
Lemma all_runs : forall ts fs fs0, (forall t t', In t ts -> In t' ts -> t_out t <> t_bra t' /\ t_out t <> t_ket t') ->
  (forall t, In t ts -> fs (t_bra t) = fs0 (t_bra t) /\ fs (t_ket t) = fs0 (t_ket t)) ->
  (forall t, In t ts -> exists f, made fs0 t = Ok f) -> exists fs', build_all fs ts = Ok fs'.
Proof.
  induction ts as [|t ts IH]; intros fs fs0 Ha Hf Hm; [eexists; reflexivity|]. cbn [RgModel.build_all]. rewrite build_made. destruct (Hm t (or_introl eq_refl)) as [f Ef].
  rewrite (made_frame fs fs0 t) by (apply (Hf t); left; reflexivity). rewrite Ef. cbn [bind]. apply (IH _ fs0).
  - intros u u' Hu Hu'. apply Ha; right; assumption.
  - intros u Hu. destruct (Ha t u (or_introl eq_refl) (or_intror Hu)) as [N1 N2]. rewrite !put_other by auto. apply Hf. right. exact Hu.
  - intros u Hu. apply Hm. right. exact Hu.
Qed.
(** the program writes, for each target, what the target requests, from the files as they were *)
Theorem program_files : forall fs lines ts, control fs rstate0 lines ts -> outputs_apart ts ->
  (forall t, In t ts -> exists f, build fs t = Ok (put fs (t_out t) (FElements f))) ->
  exists fs', radial_gen fs lines = Ok fs' /\ (forall n, (forall t, In t ts -> t_out t <> n) -> fs' n = fs n)
  /\ forall pre t post f, ts = pre ++ t :: post -> (forall t', In t' post -> t_out t' <> t_out t) -> build fs t = Ok (put fs (t_out t) (FElements f)) ->
       fs' (t_out t) = Some (FElements f).
Proof.
  intros fs lines ts Hc Ha Hb. unfold RgModel.radial_gen. apply lines_control in Hc. rewrite Hc. cbn [bind].
  destruct (all_runs ts fs fs Ha (fun _ _ => conj eq_refl eq_refl)) as [fs' E].
  { intros t Ht. destruct (Hb t Ht) as [f Hf]. exists f. apply made_iff. exact Hf. }
  exists fs'. split; [exact E|]. destruct (all_ok ts fs fs Ha (fun _ _ => conj eq_refl eq_refl) fs' E) as (_ & H2 & H3). split; [exact H2|].
  intros pre t post f Et Hl Hf. apply (H3 pre t post f Et Hl). apply made_iff. exact Hf.
Qed.
(** ... and only then does it end well *)
Theorem program_needs : forall fs lines fs', radial_gen fs lines = Ok fs' -> exists ts, control fs rstate0 lines ts
  /\ (outputs_apart ts -> forall t, In t ts -> exists f, build fs t = Ok (put fs (t_out t) (FElements f))).
Proof.
  intros fs lines fs' H. unfold RgModel.radial_gen in H. destruct (read_lines fs rstate0 lines) as [ts| | |] eqn:E; try discriminate. cbn [bind] in H.
  exists ts. split; [apply lines_control; exact E|]. intros Ha t Ht. destruct (all_ok ts fs fs Ha (fun _ _ => conj eq_refl eq_refl) fs' H) as (H1 & _). destruct (H1 t Ht) as [f Hf].
  exists f. apply made_iff. exact Hf.
Qed.
(** orbitals that cannot be read end the program *)
Theorem no_orbitals : forall fs t, (forall os, fs (t_bra t) <> Some (FOrbitals os)) \/ (forall os, fs (t_ket t) <> Some (FOrbitals os)) -> build fs t = Exit.
Proof.
  intros fs t H. unfold RgModel.build, read_orbitals. destruct (fs (t_bra t)) as [[os|f|]|]; try reflexivity. destruct H as [H|H]; [elim (H os); reflexivity|]. cbn [bind].
  destruct (fs (t_ket t)) as [[os'|f|]|]; try reflexivity. elim (H os'). reflexivity.
Qed.
(** a target of unknown mode *)
Theorem unknown_mode : forall fs kf out kb os, fs kf = Some (FOrbitals os) -> build fs (RTarget kf kf out kb kb 1 None) = UB.
Proof. intros fs kf out kb os H. unfold RgModel.build, read_orbitals. cbn [t_bra t_ket]. rewrite H. reflexivity. Qed.
(** a solid harmonic of negative order *)
Lemma no_sectors : forall b k z g T, (z < 0)%Z -> Forall (fun x : llabel * list Z => (0 < ll_2j (fst x))%Z) b -> sectors_of b k (z, g, T) = [].
Proof.
  intros b k z g T Hz Hb. destruct (sectors_of b k (z, g, T)) as [|[I K] s] eqn:E; [reflexivity|]. exfalso.
  assert (In (I, K) (sectors_of b k (z, g, T))) as Hin by (rewrite E; left; reflexivity).
  destruct (sectors_range _ _ _ (I, K) Hin) as [H1 H2]. cbn [fst snd] in H1, H2. apply nth_error_Some in H1, H2. destruct (nth_error b I) as [[la ns]|] eqn:E1; [|congruence]. destruct (nth_error k K) as [[lb ns']|] eqn:E2; [|congruence].
  apply (sectors_allowed2 b k (z, g, T) I K _ _ E1 E2) in Hin. destruct Hin as (Hc & _). cbn [fst] in Hc. unfold coupled in Hc. lia.
Qed.
Theorem negative_order : forall fs kf out kb t z g os, fs kf = Some (FOrbitals os) -> proper os -> (z < 0)%Z ->
  build fs (RTarget kf kf out kb kb 1 (Some (MSolid t, z, (z, g, 0%Z)))) = Ok (put fs out (FElements (RFile false (z, g, 0%Z) (mk_wspace os) (mk_wspace os) [] []))).
Proof.
  intros fs kf out kb t z g os Hf Hp Hz. unfold RgModel.build, read_orbitals. cbn [t_bra t_ket t_op t_out get]. rewrite Hf. cbn [bind].
  assert (sectors_of (forget (mk_wspace os)) (forget (mk_wspace os)) (z, g, 0%Z) = []) as ->.
  { apply no_sectors; [exact Hz|]. pose proof (proper_space os Hp) as Hs. unfold orbital_space in Hs. rewrite Forall_forall in *. intros x Hx. apply (Hs x Hx). }
  reflexivity.
Qed.
End Program.

(** ** radial-extract *)
Lemma look_up_in : forall s I K, In (I, K) s -> exists q, look_up_sector s I K = Some q.
Proof. intros s I K H. destruct (look_up_sector s I K) as [q|] eqn:E; [eauto|]. exfalso. exact (proj1 (look_up_none s I K) E H). Qed.
Lemma sub_look : forall sp a I, distinct_labels sp -> label_of sp I = Some a -> look_up_subspace sp a = Some I.
Proof.
  intros sp a I Hd H. destruct (look_up_subspace sp a) as [J|] eqn:E; [|exfalso; exact (look_up_subspace_none _ _ E I H)].
  destruct (look_up_subspace_some _ _ _ E) as [_ HJ]. rewrite (label_unique sp J I a Hd HJ H). reflexivity.
Qed.
Lemma map_blocks_total : forall A B (f : A -> outcome B) (g : A -> B) l, (forall x, In x l -> f x = Ok (g x)) -> map_blocks f l = Ok (map g l).
Proof.
  intros A B f g l. induction l as [|x l IH]; intros H; [reflexivity|]. cbn. rewrite (H x (or_introl eq_refl)). cbn [bind]. rewrite IH by (intros y Hy; apply H; right; exact Hy). reflexivity.
Qed.
Lemma in_combine_seq : forall A (l : list A) s i x, In (i, x) (combine (seq s (length l)) l) -> (s <= i)%nat /\ nth_error l (i - s) = Some x.
Proof.
  induction l as [|y l IH]; intros s i x H; [destruct H|]. cbn in H. destruct H as [[= -> ->]|H]; [split; [lia|]; rewrite Nat.sub_diag; reflexivity|].
  apply IH in H. destruct H as [H1 H2]. split; [lia|]. replace (i - s)%nat with (S (i - S s)) by lia. exact H2.
Qed.
Section Extract.
Variable f : rfile.
Hypothesis Hf : transformation f.
Notation bra := (forget (rf_bra f)).
Notation ket := (forget (rf_ket f)).
Notation s := (rf_sectors f).
Notation ms := (rf_blocks f).
Definition line_of (I K : nat) (a : llabel) (kn : nat * Z) : xline :=
  XLine (snd kn) (ll_l a) (ll_2j a) (two_tz a) (sub_dim bra I) (map (fun i => entry s ms I i K (fst kn)) (seq 0 (sub_dim bra I))).
Lemma scalar_sector : forall I K a x, label_of bra I = Some a -> nth_error ket K = Some (a, x) -> In (I, K) s.
Proof.
  intros I K a x H1 H2. destruct Hf as (_ & Es & _ & Sb & Sk & _). rewrite Es. unfold label_of in H1. destruct (nth_error bra I) as [[a' ns]|] eqn:E; [|discriminate]. cbn in H1. injection H1 as ->.
  apply (sectors_allowed2 bra ket (0, 0, 0)%Z I K _ _ E H2). cbn [fst]. rewrite Forall_forall in Sk. pose proof (Sk _ (nth_error_In _ _ H2)) as S. cbn in S. apply scalar_labels; auto.
Qed.
Lemma subspace_lines : forall I K a ns, label_of bra I = Some a -> nth_error ket K = Some (a, ns) ->
  extract_subspace bra s ms K (a, ns) = Ok (map (line_of I K a) (combine (seq 0 (length ns)) ns)).
Proof.
  intros I K a ns H1 H2. unfold extract_subspace. cbn [fst snd]. destruct Hf as (_ & Es & O & Sb & Sk & Db). rewrite (sub_look _ _ _ Db H1). cbn [get bind].
  assert (H1' := H1). unfold label_of in H1. destruct (nth_error bra I) as [[a' bs]|] eqn:Eb; [|discriminate]. cbn in H1. injection H1 as ->. cbn [get bind].
  destruct (look_up_in s I K (scalar_sector I K a ns H1' H2)) as [q Eq]. rewrite Eq. cbn [get bind]. destruct (op_look_up _ _ _ _ _ _ _ O Eq) as (m & Em & R1 & C1 & En & _). rewrite Em. cbn [get bind snd].
  apply map_blocks_total. intros [k n] Hk. cbn [fst snd]. apply in_combine_seq in Hk. destruct Hk as [_ Hk]. rewrite Nat.sub_0_r in Hk. assert (k < length ns)%nat by (apply nth_error_Some; congruence).
  assert (sub_dim bra I = length bs) as Ed by (unfold sub_dim; rewrite Eb; reflexivity).
  rewrite (map_blocks_total _ _ _ (fun i => entry s ms I i K k)).
  - cbn [bind]. unfold line_of. cbn [fst snd]. rewrite Ed. reflexivity.
  - intros i Hi. apply in_seq in Hi. unfold element. rewrite R1, C1, Ed. unfold sub_dim. rewrite H2. destruct (Nat.ltb_spec i (length bs)); [|lia]. destruct (Nat.ltb_spec k (length ns)); [|lia].
    cbn [andb cassert bind]. rewrite En. reflexivity.
Qed.
Lemma overlap_ok : overlap_file f = Ok tt.
Proof. destruct Hf as ([H1 H2] & _). unfold overlap_file. rewrite H1, H2. reflexivity. Qed.
Lemma columns_of : forall I K a ns, label_of bra I = Some a -> nth_error ket K = Some (a, ns) ->
  Forall2 (column f) (map (pair K) (seq 0 (sub_dim ket K))) (map (line_of I K a) (combine (seq 0 (length ns)) ns)).
Proof.
  intros I K a ns H1 H2. unfold sub_dim at 1. rewrite H2.
  assert (forall st l, (forall k n, In (k, n) (combine (seq st (length l)) l) -> nth_error ns k = Some n) ->
    Forall2 (column f) (map (pair K) (seq st (length l))) (map (line_of I K a) (combine (seq st (length l)) l))) as G.
  { intros st l. revert st. induction l as [|n l IH]; intros st H; [constructor|]. cbn [length seq combine map]. constructor.
    - exists a, n, I. split; [exists ns; split; [exact H2|apply H; left; reflexivity]|]. split; [exact H1|]. unfold line_of, two_tz. cbn [fst snd]. reflexivity.
    - apply IH. intros k n' Hk. apply H. right. exact Hk. }
  apply G. intros k n Hk. apply in_combine_seq in Hk. destruct Hk as [_ Hk]. rewrite Nat.sub_0_r in Hk. exact Hk.
Qed.
Theorem extract_lines : (forall K a, label_of ket K = Some a -> exists I, label_of bra I = Some a) ->
  exists ls, radial_extract f = Ok ls /\ Forall2 (column f) (states_in_order ket) ls.
Proof.
  intros Hall. unfold radial_extract. rewrite overlap_ok. cbn [bind].
  assert (forall st l, (forall K x, In (K, x) (combine (seq st (length l)) l) -> nth_error ket K = Some x) ->
    exists ls, map_blocks (fun Kx => extract_subspace bra s ms (fst Kx) (snd Kx)) (combine (seq st (length l)) l) = Ok ls
      /\ Forall2 (column f) (flat_map (fun K => map (pair K) (seq 0 (sub_dim ket K))) (seq st (length l))) (concat ls)) as G.
  { intros st l. revert st. induction l as [|[a ns] l IH]; intros st H; [exists []; split; [reflexivity|constructor]|]. cbn [length seq combine map_blocks flat_map fst snd].
    assert (nth_error ket st = Some (a, ns)) as E by (apply H; left; reflexivity).
    destruct (Hall st a) as [I HI]; [unfold label_of; rewrite E; reflexivity|]. rewrite (subspace_lines I st a ns HI E). cbn [bind].
    destruct (IH (S st)) as (ls & E1 & F1); [intros K x Hx; apply H; right; exact Hx|]. rewrite E1. cbn [bind]. eexists. split; [reflexivity|]. cbn [concat]. apply Forall2_app; [|exact F1].
    apply columns_of; assumption. }
  assert (length (rf_ket f) = length ket) as EL by (unfold forget; rewrite map_length; reflexivity). rewrite EL.
  destruct (G 0%nat ket) as (ls & E & F).
  { intros K x Hx. apply in_combine_seq in Hx. destruct Hx as [_ Hx]. rewrite Nat.sub_0_r in Hx. exact Hx. }
  exists (concat ls). rewrite E. split; [reflexivity|exact F].
Qed.
Lemma subspace_cases : forall K x, nth_error ket K = Some x -> (exists l, extract_subspace bra s ms K x = Ok l) \/ extract_subspace bra s ms K x = UB.
Proof.
  intros K [a ns] H. destruct (look_up_subspace bra a) as [I|] eqn:E.
  - left. eexists. apply subspace_lines; [|exact H]. exact (proj2 (look_up_subspace_some _ _ _ E)).
  - right. unfold extract_subspace. cbn [fst]. rewrite E. reflexivity.
Qed.
Theorem extract_missing : forall K a, label_of ket K = Some a -> (forall I, label_of bra I <> Some a) -> radial_extract f = UB.
Proof.
  intros K a HK HI. unfold radial_extract. rewrite overlap_ok. cbn [bind].
  assert (length (rf_ket f) = length ket) as EL by (unfold forget; rewrite map_length; reflexivity). rewrite EL.
  assert (forall st l, (forall K x, In (K, x) (combine (seq st (length l)) l) -> nth_error ket K = Some x) -> (exists K x, In (K, (a, x)) (combine (seq st (length l)) l)) ->
    map_blocks (fun Kx => extract_subspace bra s ms (fst Kx) (snd Kx)) (combine (seq st (length l)) l) = UB) as G.
  { intros st l. revert st. induction l as [|y l IH]; intros st H (K' & x & Hin); [destruct Hin|]. cbn [length seq combine map_blocks fst snd] in *.
    destruct (subspace_cases st y) as [[ls E]|E]; [apply H; left; reflexivity| |rewrite E; reflexivity]. rewrite E. cbn [bind]. destruct Hin as [Hin|Hin].
    - exfalso. injection Hin as -> ->. unfold extract_subspace in E. cbn [fst] in E. destruct (look_up_subspace bra a) as [I|] eqn:Ea; [|discriminate].
      exact (HI I (proj2 (look_up_subspace_some _ _ _ Ea))).
    - rewrite IH; [reflexivity| |exists K', x; exact Hin]. intros K'' x'' H''. apply H. right. exact H''. }
  rewrite G; [reflexivity| |].
  - intros K' x Hx. apply in_combine_seq in Hx. destruct Hx as [_ Hx]. rewrite Nat.sub_0_r in Hx. exact Hx.
  - unfold label_of in HK. destruct (nth_error ket K) as [[a' ns]|] eqn:E; [|discriminate]. cbn in HK. injection HK as ->. exists K, ns.
    clear -E. assert (forall st (l : lspace) K, nth_error l K = Some (a, ns) -> In ((st + K)%nat, (a, ns)) (combine (seq st (length l)) l)) as G.
    { intros st l. revert st. induction l as [|y l IH]; intros st [|k] H; try discriminate; cbn.
      - injection H as ->. left. rewrite Nat.add_0_r. reflexivity.
      - right. replace (st + S k)%nat with (S st + k)%nat by lia. apply IH. exact H. }
    exact (G 0%nat ket K E).
Qed.

(** ** radial-plot *)
Variable wave : Z -> Z -> R -> radial_basis -> R -> R.
Lemma points_len : forall np rm, length (lin_spaced np rm) = np.
Proof. intros [|[|np]] rm; cbn [lin_spaced]; rewrite ?map_length, ?seq_length; reflexivity. Qed.
Lemma points_nth : forall np rm i, (i < np)%nat -> nth i (lin_spaced np rm) 0 = point np rm i.
Proof.
  intros np rm i H. unfold point. destruct np as [|[|np]]; [lia| |].
  - cbn [lin_spaced Nat.eqb]. destruct i; [reflexivity|lia].
  - cbn [Nat.eqb]. unfold lin_spaced. rewrite (nth_indep _ 0 ((fun i => INR i * (rm / INR (S (S np) - 1))) 0%nat)) by (rewrite map_length, seq_length; exact H).
    rewrite (map_nth (fun i => INR i * (rm / INR (S (S np) - 1)))). rewrite seq_nth by exact H. cbn [plus]. unfold Rdiv. ring.
Qed.
Theorem plot_rows : forall a bt sp I ns, In (p_basis a, bt) bases -> (p_species a = match sp with SP => 0 | SN => 1 end)%Z -> (0 <= p_points a)%Z ->
  nth_error bra I = Some (LL sp (p_l a) (p_2j a), ns) -> label_of ket I = Some (LL sp (p_l a) (p_2j a)) -> sub_dim ket I = length ns ->
  radial_plot wave a f = Ok (map (fun i => point (Z.to_nat (p_points a)) (p_rmax a) i
     :: map (fun k => rsum (length ns) (fun b => wave (nth b ns 0%Z) (p_l a) (p_scale a) bt (point (Z.to_nat (p_points a)) (p_rmax a) i) * entry s ms I b I k)) (seq 0 (length ns)))
     (seq 0 (Z.to_nat (p_points a)))).
Proof.
  intros a bt sp I ns Hb Hs Hp HI HK Hd. unfold radial_plot. apply (named_in _ basis_names _ _ basis_nodup) in Hb. rewrite Hb. cbn [bind]. rewrite overlap_ok. cbn [bind].
  assert (species_of (p_species a) = Some sp) as -> by (rewrite Hs; destruct sp; reflexivity). cbn [get bind]. assert (Hf' := Hf). destruct Hf' as (_ & Es & O & Sb & Sk & Db).
  rewrite (sub_look bra _ I Db) by (unfold label_of; rewrite HI; reflexivity). cbn [get bind]. rewrite HI. cbn [get bind].
  unfold label_of in HK. destruct (nth_error ket I) as [[a' ks]|] eqn:EK; [|discriminate]. cbn in HK. injection HK as ->.
  destruct (look_up_in s I I) as [q Eq]. { apply (scalar_sector I I _ ks) with (2 := EK). unfold label_of. rewrite HI. reflexivity. }
  rewrite Eq. cbn [get bind]. destruct (Z.leb_spec 0 (p_points a)); [|lia]. cbn [cassert bind]. destruct (op_look_up _ _ _ _ _ _ _ O Eq) as (m & Em & R1 & C1 & En & _). rewrite Em. cbn [get bind snd].
  assert (sub_dim bra I = length ns) as Eb by (unfold sub_dim; rewrite HI; reflexivity). unfold mmul. cbn [rows cols]. rewrite R1, C1, Eb, Hd, Nat.eqb_refl. cbn [cassert bind rows cols at_]. rewrite Nat.eqb_refl. cbn [cassert bind].
  f_equal. apply map_ext_in. intros i Hi. apply in_seq in Hi. rewrite points_nth by lia. f_equal. apply map_ext_in. intros k Hk. apply in_seq in Hk.
  apply rsum_ext. intros b Hb'. rewrite En. reflexivity.
Qed.
Theorem plot_index : forall a bt sp I, In (p_basis a, bt) bases -> (p_species a = match sp with SP => 0 | SN => 1 end)%Z ->
  label_of bra I = Some (LL sp (p_l a) (p_2j a)) -> label_of ket I <> Some (LL sp (p_l a) (p_2j a)) -> radial_plot wave a f = UB.
Proof.
  intros a bt sp I Hb Hs HI HK. unfold radial_plot. apply (named_in _ basis_names _ _ basis_nodup) in Hb. rewrite Hb. cbn [bind]. rewrite overlap_ok. cbn [bind].
  assert (species_of (p_species a) = Some sp) as -> by (rewrite Hs; destruct sp; reflexivity). cbn [get bind]. assert (Hf' := Hf). destruct Hf' as (_ & Es & O & Sb & Sk & Db).
  rewrite (sub_look bra _ I Db HI). cbn [get bind]. unfold label_of in HI. destruct (nth_error bra I) as [[a' ns]|] eqn:EB; [|discriminate]. cbn in HI. injection HI as ->. cbn [get bind].
  destruct (look_up_sector s I I) as [q|] eqn:Eq; [|reflexivity]. exfalso. apply HK. destruct (op_look_up _ _ _ _ _ _ _ O Eq) as (_ & _ & _ & _ & _ & _ & HJ). apply nth_error_Some in HJ.
  destruct (nth_error ket I) as [[b' ks]|] eqn:EK; [|congruence]. unfold label_of. rewrite EK. cbn. pose proof (look_up_some _ _ _ _ Eq) as Hin. apply nth_error_In in Hin. rewrite Es in Hin.
  apply (sectors_allowed2 bra ket (0, 0, 0)%Z I I _ _ EB EK) in Hin. cbn [fst] in Hin. apply scalar_labels in Hin.
  - congruence.
  - rewrite Forall_forall in Sb. exact (Sb _ (nth_error_In _ _ EB)).
  - rewrite Forall_forall in Sk. exact (Sk _ (nth_error_In _ _ EK)).
Qed.
Theorem plot_width : forall a bt sp I, In (p_basis a, bt) bases -> (p_species a = match sp with SP => 0 | SN => 1 end)%Z ->
  label_of bra I = Some (LL sp (p_l a) (p_2j a)) -> label_of ket I = Some (LL sp (p_l a) (p_2j a)) -> sub_dim ket I <> sub_dim bra I -> radial_plot wave a f = AssertFail.
Proof.
  intros a bt sp I Hb Hs HI HK Hd. unfold radial_plot. apply (named_in _ basis_names _ _ basis_nodup) in Hb. rewrite Hb. cbn [bind]. rewrite overlap_ok. cbn [bind].
  assert (species_of (p_species a) = Some sp) as -> by (rewrite Hs; destruct sp; reflexivity). cbn [get bind]. assert (Hf' := Hf). destruct Hf' as (_ & Es & O & Sb & Sk & Db).
  rewrite (sub_look bra _ I Db HI). cbn [get bind]. assert (HI' := HI). unfold label_of in HI, HK. destruct (nth_error bra I) as [[a' ns]|] eqn:EB; [|discriminate]. cbn in HI. injection HI as ->. cbn [get bind].
  destruct (nth_error ket I) as [[b' ks]|] eqn:EK; [|discriminate]. cbn in HK. injection HK as ->.
  destruct (look_up_in s I I (scalar_sector I I _ ks HI' EK)) as [q Eq]. rewrite Eq. cbn [get bind]. destruct (0 <=? p_points a)%Z; [|reflexivity]. cbn [cassert bind].
  destruct (op_look_up _ _ _ _ _ _ _ O Eq) as (m & Em & R1 & C1 & En & _). rewrite Em. cbn [get bind snd].
  assert (sub_dim bra I = length ns) as Eb by (unfold sub_dim; rewrite EB; reflexivity). unfold mmul. cbn [rows cols]. rewrite R1, Eb, Nat.eqb_refl. cbn [cassert bind rows cols at_]. rewrite C1.
  destruct (Nat.eqb_spec (sub_dim ket I) (length ns)) as [E|_]; [congruence|reflexivity].
Qed.
Theorem plot_absent : forall a bt, In (p_basis a, bt) bases ->
  (forall sp I, (p_species a = match sp with SP => 0 | SN => 1 end)%Z -> label_of bra I <> Some (LL sp (p_l a) (p_2j a))) -> radial_plot wave a f = UB.
Proof.
  intros a bt Hb H. unfold radial_plot. apply (named_in _ basis_names _ _ basis_nodup) in Hb. rewrite Hb. cbn [bind]. rewrite overlap_ok. cbn [bind].
  destruct (species_of (p_species a)) as [sp|] eqn:E; [|reflexivity]. cbn [get bind]. destruct (look_up_subspace bra _) as [I|] eqn:EI; [|reflexivity]. exfalso.
  apply (H sp I); [|exact (proj2 (look_up_subspace_some _ _ _ EI))]. unfold species_of in E. destruct (Z.eqb_spec (p_species a) 0); [injection E as <-; assumption|].
  destruct (Z.eqb_spec (p_species a) 1); [injection E as <-; assumption|discriminate].
Qed.
End Extract.
(** files of another kind, arguments *)
Theorem extract_other : forall f, ~ is_overlaps f -> radial_extract f = AssertFail.
Proof.
  intros f H. unfold radial_extract, overlap_file, is_overlaps in *. destruct (rf_radial f); [|destruct (rf_q f) as [[a b] c]; reflexivity]. destruct (rf_q f) as [[a b] c].
  cbn [cassert bind]. destruct (Z.eqb_spec a 0); [|reflexivity]. cbn [cassert bind]. destruct (Z.eqb_spec b 0); [|reflexivity]. cbn [cassert bind]. destruct (Z.eqb_spec c 0); [|reflexivity].
  elim H. subst. auto.
Qed.
Theorem plot_other : forall wave a bt f, In (p_basis a, bt) bases -> ~ is_overlaps f -> radial_plot wave a f = AssertFail.
Proof.
  intros wave a bt f Hb H. unfold radial_plot. apply (named_in _ basis_names _ _ basis_nodup) in Hb. rewrite Hb. cbn [bind]. pose proof (extract_other f H) as E. unfold radial_extract in E.
  assert (overlap_file f = AssertFail) as ->; [|reflexivity]. unfold overlap_file, is_overlaps in *. destruct (rf_radial f); [|destruct (rf_q f) as [[x y] z]; reflexivity]. destruct (rf_q f) as [[x y] z].
  cbn [cassert bind]. destruct (Z.eqb_spec x 0); [|reflexivity]. cbn [cassert bind]. destruct (Z.eqb_spec y 0); [|reflexivity]. cbn [cassert bind]. destruct (Z.eqb_spec z 0); [|reflexivity].
  elim H. subst. auto.
Qed.
Theorem plot_basis : forall wave a f, (forall bt, ~ In (p_basis a, bt) bases) -> radial_plot wave a f = Exit.
Proof.
  intros wave a f H. unfold radial_plot. destruct (named_cases _ basis_names (p_basis a)) as [[bt E]|E]; [|rewrite E; reflexivity].
  exfalso. apply (H bt). apply (named_in _ basis_names _ _ basis_nodup). exact E.
Qed.
Theorem extract_args : forall fs args ls, radial_extract_main fs args = Ok ls <-> exists xf out f, args = [xf; out] /\ fs xf = Some (FElements f) /\ radial_extract f = Ok ls.
Proof.
  intros fs args ls. split.
  - intros H. unfold radial_extract_main in H. destruct args as [|xf [|out [|? ?]]]; try discriminate. destruct (fs xf) as [[os|f|]|] eqn:E; try discriminate. exists xf, out, f. auto.
  - intros (xf & out & f & -> & E & H). unfold radial_extract_main. rewrite E. exact H.
Qed.
(** a file of overlaps written by radial-gen is a transformation *)
Theorem overlaps_transform : forall bo ko g f, proper bo -> proper ko -> overlaps_file bo ko g f -> transformation f.
Proof.
  intros bo ko g f Pb Pk (H1 & H2 & H3 & H4 & H5 & O & _). unfold transformation, is_overlaps. rewrite H3, H4. repeat split; auto; try apply O.
  - pose proof (proper_space bo Pb) as S. unfold orbital_space in S. rewrite Forall_forall in *. intros x Hx. apply (S x Hx).
  - pose proof (proper_space ko Pk) as S. unfold orbital_space in S. rewrite Forall_forall in *. intros x Hx. apply (S x Hx).
  - apply mk_distinct.
Qed.
