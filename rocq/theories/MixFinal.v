(** Proofs for C45 and C66-C70. *)
From Coq Require Import String List ZArith Reals Lra Lia Bool Permutation.
From Verif Require Import Base BaseLemmas H2Model MapModel MapSpec MapProof RMat XformModel SepModel
  OscModel BlockModel BlockProof MixModel MixSpec MixProof.
Import ListNotations.
Open Scope string_scope.
Open Scope list_scope.
Open Scope R_scope.

(** * unknown sources *)
Lemma populate_all_none : forall F1 F2 F12 rp tgt ts cs sm r id, ~ In id (map fst cs) ->
  populate_all F1 F2 F12 rp tgt ts cs sm = Ok r -> r id = sm id.
Proof.
  intros F1 F2 F12 rp tgt ts cs. induction cs as [|c cs IH]; intros sm r id Hn H; cbn [populate_all] in H.
  - injection H as <-. reflexivity.
  - apply bind_inv in H. destruct H as (v & Hv & H). cbn in Hn. rewrite (IH _ _ id ltac:(tauto) H).
    destruct v as [x|]; [|reflexivity]. unfold sput. destruct (String.eqb id (fst c)) eqn:E; [|reflexivity].
    apply String.eqb_eq in E. subst. tauto.
Qed.
Lemma map_blocks_eq : forall A B (f g : A -> outcome B) l, (forall x, In x l -> f x = g x) -> map_blocks f l = map_blocks g l.
Proof.
  intros A B f g l. induction l as [|x l IH]; intros H; cbn; [reflexivity|].
  rewrite H by (left; reflexivity). rewrite IH by (intros; apply H; right; assumption). reflexivity.
Qed.
Lemma map_blocks_swap : forall A B (f : A -> outcome B) l1 x y l2, f x = f y -> map_blocks f (l1 ++ x :: l2) = map_blocks f (l1 ++ y :: l2).
Proof.
  intros A B f l1 x y l2 E. induction l1 as [|z l1 IH]; cbn [app map_blocks].
  - rewrite E. reflexivity.
  - rewrite IH. reflexivity.
Qed.
Lemma unknown_ignored : forall F1 F2 F12 tol rp tgt cs t1 t2 co1 co2 id c, ~ In id (map fst cs) ->
  run F1 F2 F12 tol rp tgt cs (t1 ++ (co1 ++ (id, c) :: co2) :: t2)
  = run F1 F2 F12 tol rp tgt cs (t1 ++ (co1 ++ co2) :: t2).
Proof.
  intros F1 F2 F12 tol rp tgt cs t1 t2 co1 co2 id c Hn. unfold run. apply map_blocks_eq. intros ts _. unfold run_sector.
  destruct (populate_all F1 F2 F12 rp tgt ts cs (fun _ => None)) as [sm| | |] eqn:E; try reflexivity. cbn [bind].
  apply map_blocks_swap. apply generate_unknown. rewrite (populate_all_none _ _ _ _ _ _ _ _ _ _ Hn E). reflexivity.
Qed.

(** * a small example: the 0p3/2 shell, two protons with J = 2 *)
Definition x_orb : ospace := fun _ => [OL 0 1 3].
Definition x_sub : subspace := Sub PP 2 0 [(0, 0)]%nat.
Definition x_sec : sector := Sec x_sub x_sub 0 0.
Definition x_index (J0 : Z) : tindex := TIx x_orb [x_sub] [x_sec] (J0, 0, 0)%Z.
Definition x_file (J0 : Z) (v : R) : infile := InFile (x_index J0) (fun _ => Ok (Mat 1 1 (fun _ _ => v))).
Definition x_params : params := Params 0 0 0 (Some 2%Z).

Lemma x_index_ok : forall J0, index_ok (x_index J0).
Proof.
  intros J0. split.
  - split.
    + intros x. constructor; [intros []|constructor].
    + intros x. repeat constructor. cbn. lia.
    + constructor; [intros []|constructor].
    + constructor; [|constructor]. split; [|discriminate]. constructor; [intros []|constructor].
    + repeat constructor.
  - repeat constructor.
  - constructor; [intros []|constructor].
Qed.
Lemma x_file_ok : forall J0 v, file_ok (x_file J0 v).
Proof.
  intros J0 v. split; [apply x_index_ok|]. intros [|[|i]] s H; cbn in H; try discriminate.
  injection H as <-. eexists. split; [reflexivity|]. split; reflexivity.
Qed.
Lemma x_same : same_state x_orb x_sub 0 x_orb x_sub 0 1.
Proof. apply (same_direct _ _ _ _ _ _ (OL 0 1 3) (OL 0 1 3)); exists 0%nat, 0%nat; repeat split. Qed.
Lemma x_labelled : forall J0 v x, labelled (x_file J0 v) (x_index 0) x_sec 0 0 x -> x = v.
Proof.
  intros J0 v x H. inversion H as [i s m sb sk pb pk Hi Hs Hm Sb Sk| Hno | s Hs Hss Hno]; subst.
  - destruct i as [|[|i]]; cbn in Hi; try discriminate. injection Hi as <-. cbn in Hm. injection Hm as <-.
    assert (sb = 0%nat) by (destruct (same_state_range _ _ _ _ _ _ _ Sb) as [Hr _]; cbn in Hr; lia).
    assert (sk = 0%nat) by (destruct (same_state_range _ _ _ _ _ _ _ Sk) as [Hr _]; cbn in Hr; lia). subst sb sk.
    destruct (same_state_fun x_orb x_orb [x_sub] [x_sub] (xk_space _ (x_index_ok 0)) x_sub 0 x_sub 0 0 pb 1
       (or_introl eq_refl) (or_introl eq_refl) eq_refl Sb x_same) as [_ ->].
    destruct (same_state_fun x_orb x_orb [x_sub] [x_sub] (xk_space _ (x_index_ok 0)) x_sub 0 x_sub 0 0 pk 1
       (or_introl eq_refl) (or_introl eq_refl) eq_refl Sk x_same) as [_ ->].
    unfold stored. cbn. lra.
  - elim (Hno x_sec); [left; reflexivity|split; reflexivity].
  - destruct Hs as [<-|[]]. destruct Hno as [Hno|Hno]; elim (Hno 0%nat 1%Z x_same).
Qed.

(** the value written for one target *)
Lemma x_run : forall F1 F2 F12 tol rp fs coefs, NoDup (map fst fs) ->
  (forall p, In p fs -> exists J0 v, snd p = x_file J0 v) ->
  exists m v, mixer F1 F2 F12 tol rp [] [] (x_index 0) (inputs fs) [coefs] = Ok [[m]]
  /\ (forall id J0 w, In (id, x_file J0 w) fs -> v id = w) /\ (forall id, ~ In id (map fst fs) -> v id = 0)
  /\ chopped tol (combination coefs v) (at_ m 0 0).
Proof.
  intros F1 F2 F12 tol rp fs coefs Hn Hf.
  destruct (mixer_inputs F1 F2 F12 tol rp [] [] (x_index 0) fs [coefs] Hn (x_index_ok 0)) as (out & Ho & HL & HN).
  { apply Forall_forall. intros p Hp. destruct (Hf p Hp) as (J0 & v & ->). apply x_file_ok. }
  destruct out as [|row [|? ?]]; try discriminate HL.
  destruct (HN 0%nat x_sec row eq_refl eq_refl) as [RL RN]. destruct row as [|m [|? ?]]; try discriminate RL.
  destruct (RN 0%nat coefs m eq_refl eq_refl) as [[Dr Dc] V]. cbn in Dr, Dc.
  destruct (V 0%nat 0%nat) as (v & V1 & V2 & Ch); [lia|lia|].
  exists m, v. split; [exact Ho|]. split; [|split; assumption]. intros id J0 w Hin. specialize (V1 id _ Hin).
  apply x_labelled in V1. exact V1.
Qed.

(** * C45 *)
Lemma misspelt : forall F1 F2 F12, exists tol rp tgt sources coefficients id out,
  index_ok tgt /\ ti_sectors tgt <> [] /\ In id (map fst coefficients) /\ ~ In id (map fst sources)
  /\ mixer F1 F2 F12 tol rp [] [] tgt sources [coefficients] = Ok out.
Proof.
  intros F1 F2 F12.
  destruct (x_run F1 F2 F12 (/ 10) x_params [("Vrel", x_file 0 5)] [("Vrel", 1); ("Vre1", 2)]) as (m & v & Hm & _).
  - constructor; [intros []|constructor].
  - intros p [<-|[]]. exists 0%Z, 5. reflexivity.
  - exists (/ 10), x_params, (x_index 0), (inputs [("Vrel", x_file 0 5)]), [("Vrel", 1); ("Vre1", 2)], "Vre1", [[m]].
    split; [apply x_index_ok|]. split; [discriminate|]. split; [right; left; reflexivity|].
    split; [intros [H|[]]; discriminate|]. exact Hm.
Qed.

(** * C66 *)
Lemma no_mass : forall F1 F2 F12 tol rp xs obs tgt targets, rp_A rp = None -> ti_sectors tgt <> [] ->
  mixer F1 F2 F12 tol rp xs obs tgt [("identity", SBuiltin)] targets = UB.
Proof.
  intros F1 F2 F12 tol rp xs obs tgt targets HA Hs. unfold mixer. cbn [map_blocks initialize bind]. unfold run.
  destruct (ti_sectors tgt) as [|ts l]; [contradiction|]. cbn [map_blocks]. unfold run_sector at 1.
  cbn [populate_all]. unfold populate at 1. cbn [snd fst]. cbn [String.eqb Ascii.eqb Bool.eqb]. unfold mass. rewrite HA. reflexivity.
Qed.

Lemma no_mass_example : forall F1 F2 F12, exists tol rp tgt,
  index_ok tgt /\ mixer F1 F2 F12 tol rp [] [] tgt [("identity", SBuiltin)] [[("identity", 1)]] = UB.
Proof.
  intros F1 F2 F12. exists (/ 10), (Params 0 0 0 None), (x_index 0). split; [apply x_index_ok|].
  apply no_mass; [reflexivity|discriminate].
Qed.

(** * C67 *)
Lemma wrong_rank : forall F1 F2 F12, exists tol rp tgt f out m,
  index_ok tgt /\ file_ok f /\ Forall (allowed (ti_q (if_ix f))) (ti_sectors (if_ix f)) /\ Forall (allowed (ti_q tgt)) (ti_sectors tgt)
  /\ ti_q tgt = (rp_J0 rp, rp_g0 rp, rp_Tz0 rp) /\ ti_q (if_ix f) <> ti_q tgt
  /\ mixer F1 F2 F12 tol rp [] [] tgt [("quadrupole", SInput f)] [[("quadrupole", 1)]] = Ok out
  /\ nth_error out 0 = Some [m] /\ at_ m 0 0 <> 0.
Proof.
  intros F1 F2 F12.
  destruct (x_run F1 F2 F12 (/ 10) x_params [("quadrupole", x_file 2 5)] [("quadrupole", 1)]) as (m & v & Hm & Hv & _ & Ch).
  - constructor; [intros []|constructor].
  - intros p [<-|[]]. exists 2%Z, 5. reflexivity.
  - exists (/ 10), x_params, (x_index 0), (x_file 2 5), [[m]], m.
    split; [apply x_index_ok|]. split; [apply x_file_ok|]. split; [repeat constructor; cbn; lia|]. split; [repeat constructor; cbn; lia|].
    split; [reflexivity|]. split; [discriminate|]. split; [exact Hm|]. split; [reflexivity|].
    destruct Ch as [_ Ch]. unfold combination in Ch. cbn [lsum fst snd] in Ch. rewrite (Hv "quadrupole" 2%Z 5) in Ch by (left; reflexivity).
    rewrite Ch; [lra|]. rewrite Rabs_right by lra. lra.
Qed.

(** * C68: the second of two sources of the same name replaces the first *)
Lemma x_two : forall F1 F2 F12 tol rp u w c, exists m,
  mixer F1 F2 F12 tol rp [] [] (x_index 0) (inputs [("V", x_file 0 u); ("V", x_file 0 w)]) [[("V", c)]] = Ok [[m]]
  /\ chopped tol (c * w) (at_ m 0 0).
Proof.
  intros F1 F2 F12 tol rp u w c. unfold mixer. cbn [inputs map map_blocks initialize fst snd].
  change (make_mapping (ti_orb (if_ix (x_file 0 u))) (ti_space (if_ix (x_file 0 u))) (ti_orb (x_index 0)) (ti_space (x_index 0)))
    with (make_mapping x_orb [x_sub] x_orb [x_sub]).
  change (make_mapping (ti_orb (if_ix (x_file 0 w))) (ti_space (if_ix (x_file 0 w))) (ti_orb (x_index 0)) (ti_space (x_index 0)))
    with (make_mapping x_orb [x_sub] x_orb [x_sub]).
  assert (Hmp := fun v => input_channel (x_file 0 v) (x_index 0) x_sec (x_file_ok 0 v) (x_index_ok 0) (conj eq_refl eq_refl)).
  destruct (Hmp u) as (mp & Emp & ru & Eu & Du & Lu). destruct (Hmp w) as (mp' & Emp' & rw & Ew & Dw & Lw).
  change (make_mapping x_orb [x_sub] x_orb [x_sub] = Ok mp) in Emp.
  change (make_mapping x_orb [x_sub] x_orb [x_sub] = Ok mp') in Emp'. rewrite Emp in Emp'. injection Emp' as <-.
  rewrite Emp. cbn [bind]. unfold run. change (ti_sectors (x_index 0)) with [x_sec]. cbn [map_blocks]. unfold run_sector.
  cbn [populate_all]. unfold populate. cbn [snd fst]. rewrite Eu. cbn [bind]. rewrite Ew. cbn [bind].
  assert (Hw : rw <> None).
  { intros ->. unfold populate_input in Ew. change (counterpart (if_ix (x_file 0 w)) x_sec) with (Some 0%nat) in Ew.
    cbn [get nth_error ti_sectors if_ix x_file x_index bind] in Ew.
    apply bind_inv in Ew. destruct Ew as (z & _ & Ew). apply bind_inv in Ew. destruct Ew as (z' & _ & Ew). discriminate. }
  destruct rw as [x|]; [|contradiction]. destruct (Dw x eq_refl) as [Rx Cx].
  assert (Lx := x_labelled 0 w _ (Lw 0%nat 0%nat (le_n 1) (le_n 1))).
  set (sm := sput _ "V" x). assert (Hsm : sm "V" = Some x) by reflexivity. clearbody sm.
  cbn [map_blocks]. unfold generate. cbn [for_each fst snd]. rewrite Hsm. unfold madd_to. cbn [rows cols mzero]. rewrite Rx, Cx.
  unfold ss_size. rewrite !Nat.eqb_refl. cbn [andb cassert bind]. eexists. split; [reflexivity|].
  cbn [at_ mzero]. rewrite Lx, Rplus_0_l. apply chop_chopped.
Qed.
Lemma same_name : forall F1 F2 F12, exists tol rp tgt f g out out',
  index_ok tgt /\ file_ok f /\ file_ok g
  /\ mixer F1 F2 F12 tol rp [] [] tgt [("V", SInput f); ("V", SInput g)] [[("V", 1)]] = Ok out
  /\ mixer F1 F2 F12 tol rp [] [] tgt [("V", SInput g); ("V", SInput f)] [[("V", 1)]] = Ok out'
  /\ out <> out'.
Proof.
  intros F1 F2 F12. exists (/ 10), x_params, (x_index 0), (x_file 0 5), (x_file 0 7).
  destruct (x_two F1 F2 F12 (/ 10) x_params 5 7 1) as (m & Em & _ & Vm).
  destruct (x_two F1 F2 F12 (/ 10) x_params 7 5 1) as (m' & Em' & _ & Vm').
  exists [[m]], [[m']]. split; [apply x_index_ok|]. split; [apply x_file_ok|]. split; [apply x_file_ok|].
  split; [exact Em|]. split; [exact Em'|]. intros E. injection E as ->.
  rewrite Vm in Vm' by (rewrite Rabs_right; lra). specialize (Vm' ltac:(rewrite Rabs_right; lra)). lra.
Qed.

(** * C69: one-body linear combinations *)
Section LinComb.
Variable mk : lspace -> Z * Z * Z -> lsectors.

Lemma q_eqb_refl : forall q, q_eqb q q = true.
Proof. intros [[a b] c]. unfold q_eqb. rewrite !Z.eqb_refl. reflexivity. Qed.
Lemma q_eqb_ne : forall q q', q <> q' -> q_eqb q q' = false.
Proof.
  intros [[a b] c] [[a' b'] c'] H. unfold q_eqb. destruct (a =? a')%Z eqn:E1, (b =? b')%Z eqn:E2, (c =? c')%Z eqn:E3; try reflexivity.
  apply Z.eqb_eq in E1, E2, E3. congruence.
Qed.

Definition sized (sp : lspace) (s : lsectors) (bs : blocks R) : Prop :=
  Forall2 (fun x m => rows m = sub_dim sp (fst x) /\ cols m = sub_dim sp (snd x)) s bs.
Lemma Forall2_nth_r : forall A B (P : A -> B -> Prop) l l' i y, Forall2 P l l' -> nth_error l' i = Some y -> exists x, nth_error l i = Some x /\ P x y.
Proof. intros A B P l l' i y F. revert i. induction F; intros [|i] H'; cbn in *; try discriminate; [injection H' as <-; eauto|eauto]. Qed.
Lemma Forall2_nth_l : forall A B (P : A -> B -> Prop) l l' i x, Forall2 P l l' -> nth_error l i = Some x -> exists y, nth_error l' i = Some y /\ P x y.
Proof. intros A B P l l' i x F. revert i. induction F; intros [|i] H'; cbn in *; try discriminate; [injection H' as <-; eauto|eauto]. Qed.
Lemma Forall2_of_nth : forall A B (P : A -> B -> Prop) l l', length l = length l' ->
  (forall i x y, nth_error l i = Some x -> nth_error l' i = Some y -> P x y) -> Forall2 P l l'.
Proof.
  intros A B P l. induction l as [|x l IH]; intros [|y l'] HL H; cbn in HL; try discriminate; constructor.
  - apply (H 0%nat); reflexivity.
  - apply IH; [lia|]. intros i. apply (H (S i)).
Qed.
Lemma Forall2_len' : forall A B (P : A -> B -> Prop) l l', Forall2 P l l' -> length l = length l'.
Proof. intros A B P l l' F. induction F; cbn; congruence. Qed.

Lemma axpy_ok : forall sp s a c b, sized sp s a -> sized sp s b ->
  exists r, axpy a c b = Ok r /\ sized sp s r
  /\ forall i x y m, nth_error a i = Some x -> nth_error b i = Some y -> nth_error r i = Some m ->
     forall j k, at_ m j k = at_ x j k + c * at_ y j k.
Proof.
  intros sp s a c b Ha Hb. unfold axpy.
  assert (La := Forall2_len' _ _ _ _ _ Ha). assert (Lb := Forall2_len' _ _ _ _ _ Hb).
  assert (Step : forall i x y, nth_error a i = Some x -> nth_error b i = Some y ->
    (x0 <- get (nth_error a i) ;; y0 <- get (nth_error b i) ;; madd_to x0 (Mat (rows y0) (cols y0) (fun i j => c * at_ y0 i j)))
    = Ok (Mat (rows x) (cols x) (fun j k => at_ x j k + c * at_ y j k))).
  { intros i x y Hx Hy. rewrite Hx, Hy. cbn [get bind]. unfold madd_to. cbn [rows cols at_].
    destruct (Forall2_nth_r _ _ _ _ _ _ _ Ha Hx) as (q & Hq & R1 & C1). destruct (Forall2_nth_r _ _ _ _ _ _ _ Hb Hy) as (q' & Hq' & R2 & C2).
    rewrite Hq in Hq'. injection Hq' as <-. rewrite R1, C1, R2, C2, !Nat.eqb_refl. cbn [andb cassert bind]. reflexivity. }
  match goal with |- exists r, map_blocks ?f ?l = _ /\ _ => destruct (map_blocks_ok _ _ f l) as (r & Er & Lr & Nr) end.
  { intros i Hi. apply in_seq in Hi.
    destruct (nth_error a i) as [x|] eqn:Ex; [|apply nth_error_None in Ex; lia].
    destruct (nth_error b i) as [y|] eqn:Ey; [|apply nth_error_None in Ey; unfold lsectors in *; lia].
    specialize (Step i x y Ex Ey). rewrite Ex, Ey in Step. eexists. exact Step. }
  exists r. split; [exact Er|]. rewrite seq_length in Lr.
  assert (Val : forall i x y m, nth_error a i = Some x -> nth_error b i = Some y -> nth_error r i = Some m ->
     m = Mat (rows x) (cols x) (fun j k => at_ x j k + c * at_ y j k)).
  { intros i x y m Hx Hy Hm. assert (Hi : (i < length a)%nat) by (apply nth_error_Some; congruence).
    destruct (Nr i i) as (m' & Hm' & Ev).
    { rewrite nth_error_nth' with (d := 0%nat) by (rewrite seq_length; exact Hi). rewrite seq_nth by exact Hi. reflexivity. }
    rewrite Hm in Hm'. injection Hm' as <-. rewrite (Step i x y Hx Hy) in Ev. injection Ev as <-. reflexivity. }
  split.
  - apply Forall2_of_nth; [unfold lsectors in *; lia|]. intros i q m Hq Hm.
    destruct (Forall2_nth_l _ _ _ _ _ _ _ Ha Hq) as (x & Hx & R1 & C1). destruct (Forall2_nth_l _ _ _ _ _ _ _ Hb Hq) as (y & Hy & _).
    rewrite (Val i x y m Hx Hy Hm). split; assumption.
  - intros i x y m Hx Hy Hm j k. rewrite (Val i x y m Hx Hy Hm). reflexivity.
Qed.

Lemma zero_sized : forall sp s, sized sp s (zero_blocks 0 sp sp s).
Proof. intros sp s. unfold sized, zero_blocks. induction s as [|x s IH]; cbn; constructor; [split; reflexivity|exact IH]. Qed.

(** all the terms are operators on space [sp] with quantum numbers [q] *)
Definition term_ok (ops : list (string * obdata)) (id : string) (sp : lspace) (q : Z * Z * Z) (ic : string * R) : Prop :=
  fst ic <> id /\ exists o, assoc ops (fst ic) = Some o /\ od_space o = sp /\ od_q o = Some q /\ sized sp (mk sp q) (od_blocks o).

Lemma terms_sum : forall ops id sp q co od, Forall (term_ok ops id sp q) co ->
  od_space od = sp -> od_q od = Some q -> od_sectors od = mk sp q -> sized sp (mk sp q) (od_blocks od) ->
  exists od', for_each co (lc_term mk ops id) (false, od) = Ok (false, od')
  /\ od_space od' = sp /\ od_q od' = Some q /\ od_sectors od' = mk sp q /\ sized sp (mk sp q) (od_blocks od')
  /\ forall i x m, nth_error (od_blocks od) i = Some x -> nth_error (od_blocks od') i = Some m ->
     forall a b, at_ m a b = at_ x a b + combination co (fun id' => ob_element ops id' i a b).
Proof.
  intros ops id sp q co. induction co as [|ic co IH]; intros od F Hsp Hq Hs Hb.
  - exists od. split; [reflexivity|]. split; [exact Hsp|]. split; [exact Hq|]. split; [exact Hs|]. split; [exact Hb|].
    intros i x m Hx Hm a b. rewrite Hx in Hm. injection Hm as <-. unfold combination. cbn [lsum]. ring.
  - inversion F as [|? ? [Hne (o & Ho & Hosp & Hoq & Hob)] F']; subst ic0 l || subst. cbn [for_each]. unfold lc_term at 1.
    assert (En : String.eqb (fst ic) id = false) by (apply String.eqb_neq; exact Hne). rewrite En, Ho, Hoq, Hq. cbn [get bind].
    rewrite Hosp, lspace_eqb_refl, q_eqb_refl. cbn [cassert bind].
    destruct (axpy_ok _ _ (od_blocks od) (snd ic) (od_blocks o) Hb Hob) as (r & Er & Sr & Vr). rewrite Er. cbn [bind].
    edestruct (IH (ObData (od_space od) (od_q od) (od_sectors od) r)) as (od' & E' & A1 & A2 & A3 & A4 & A5);
      [exact F'|reflexivity|exact Hq|exact Hs|exact Sr|].
    exists od'. split; [exact E'|]. repeat (split; [assumption|]).
    intros i x m Hx Hm a b. destruct (Forall2_nth_r _ _ _ _ _ _ _ Hb Hx) as (s & Hsi & _).
    destruct (Forall2_nth_l _ _ _ _ _ _ _ Hob Hsi) as (y & Hy & _). destruct (Forall2_nth_l _ _ _ _ _ _ _ Sr Hsi) as (z & Hz & _).
    cbn [od_blocks] in A5. rewrite (A5 i z m Hz Hm a b). rewrite (Vr i x y z Hx Hy Hz a b).
    unfold combination. cbn [lsum]. unfold ob_element at 2. rewrite Ho, Hy. ring.
Qed.

Lemma linear_combination_ok : forall ops id sp q co, assoc ops id = None -> co <> [] -> Forall (term_ok ops id sp q) co ->
  exists od, linear_combination mk ops id co = Ok ((id, od) :: ops)
  /\ od_space od = sp /\ od_q od = Some q /\ od_sectors od = mk sp q /\ sized sp (mk sp q) (od_blocks od)
  /\ forall i m, nth_error (od_blocks od) i = Some m ->
     forall a b, at_ m a b = combination co (fun id' => ob_element ops id' i a b).
Proof.
  intros ops id sp q co Hid Hne F. unfold linear_combination. rewrite Hid. destruct co as [|ic co]; [contradiction|].
  inversion F as [|? ? [Hn (o & Ho & Hosp & Hoq & Hob)] F']; subst.
  cbn [for_each]. unfold lc_term at 1.
  assert (En : String.eqb (fst ic) id = false) by (apply String.eqb_neq; exact Hn). rewrite En, Ho, Hoq. cbn [get bind od_blocks od_space od_q od_sectors].
  destruct (axpy_ok _ _ _ (snd ic) (od_blocks o) (zero_sized (od_space o) (mk (od_space o) q)) Hob) as (r & Er & Sr & Vr).
  rewrite Er. cbn [bind].
  edestruct (terms_sum ops id (od_space o) q co (ObData (od_space o) (Some q) (mk (od_space o) q) r)) as (od' & E' & A1 & A2 & A3 & A4 & A5);
    [exact F'|reflexivity|reflexivity|reflexivity|exact Sr|].
  rewrite E'. cbn [bind]. exists od'. split; [reflexivity|]. repeat (split; [assumption|]).
  intros i m Hm a b. destruct (Forall2_nth_r _ _ _ _ _ _ _ A4 Hm) as (s & Hsi & _).
  destruct (Forall2_nth_l _ _ _ _ _ _ _ Hob Hsi) as (y & Hy & _). destruct (Forall2_nth_l _ _ _ _ _ _ _ Sr Hsi) as (z & Hz & _).
  cbn [od_blocks] in A5. rewrite (A5 i z m Hz Hm a b).
  assert (Hzero : nth_error (zero_blocks 0 (od_space o) (od_space o) (mk (od_space o) q)) i
    = Some (mzero 0 (sub_dim (od_space o) (fst s)) (sub_dim (od_space o) (snd s)))).
  { unfold zero_blocks. rewrite nth_error_map. unfold lsectors in *. rewrite Hsi. reflexivity. }
  rewrite (Vr i _ y z Hzero Hy Hz a b). unfold combination. cbn [lsum]. unfold ob_element at 2. rewrite Ho, Hy. cbn [mzero at_]. ring.
Qed.

Lemma for_each_app' : forall A B (f : A -> B -> outcome B) l1 l2 s, for_each (l1 ++ l2) f s = bind (for_each l1 f s) (for_each l2 f).
Proof. intros A B f l1. induction l1 as [|x l1 IH]; intros l2 s; cbn; [reflexivity|]. destruct (f x s); cbn [bind]; auto. Qed.

(** the first term that does not fit stops the program *)
Lemma linear_combination_unknown : forall ops id sp q co ic co', assoc ops id = None -> Forall (term_ok ops id sp q) co ->
  fst ic <> id -> assoc ops (fst ic) = None -> linear_combination mk ops id (co ++ ic :: co') = Exit.
Proof.
  intros ops id sp q co ic co' Hid F Hn Hu. unfold linear_combination. rewrite Hid, for_each_app'.
  assert (En : String.eqb (fst ic) id = false) by (apply String.eqb_neq; exact Hn).
  assert (G : exists st, for_each co (lc_term mk ops id) (true, ob_default) = Ok st).
  { destruct co as [|c0 co]; [cbn; eauto|].
    destruct (linear_combination_ok ops id sp q (c0 :: co) Hid ltac:(discriminate) F) as (od & E & _).
    unfold linear_combination in E. rewrite Hid in E. apply bind_inv in E. destruct E as (st & E & _). eauto. }
  destruct G as ([fl od] & ->). cbn [bind for_each]. unfold lc_term at 1. rewrite En, Hu. reflexivity.
Qed.
Lemma linear_combination_mismatch : forall ops id sp q co ic co' o q', assoc ops id = None -> co <> [] -> Forall (term_ok ops id sp q) co ->
  fst ic <> id -> assoc ops (fst ic) = Some o -> od_q o = Some q' -> od_space o <> sp \/ q' <> q ->
  linear_combination mk ops id (co ++ ic :: co') = AssertFail.
Proof.
  intros ops id sp q co ic co' o q' Hid Hne F Hn Ho Hq Hd. unfold linear_combination. rewrite Hid, for_each_app'.
  assert (En : String.eqb (fst ic) id = false) by (apply String.eqb_neq; exact Hn).
  destruct (linear_combination_ok ops id sp q co Hid Hne F) as (od & E & A1 & A2 & _).
  unfold linear_combination in E. rewrite Hid in E. apply bind_inv in E. destruct E as ([fl od'] & E & E').
  injection E' as ->.
  assert (fl = false) as ->.
  { clear - Hne E. assert (G : forall co st st', for_each co (lc_term mk ops id) st = Ok st' -> co <> [] -> fst st' = false).
    { clear. induction co as [|c co IH]; intros st st' H Hn; [contradiction|]. cbn [for_each] in H. apply bind_inv in H. destruct H as (s1 & H1 & H).
      destruct co as [|c' co].
      - cbn in H. injection H as <-. unfold lc_term in H1. destruct st as [f od]. destruct (if String.eqb (fst c) id then Some od else assoc ops (fst c)); [|discriminate].
        apply bind_inv in H1. destruct H1 as (q & _ & H1). apply bind_inv in H1. destruct H1 as (od1 & _ & H1).
        apply bind_inv in H1. destruct H1 as (b & _ & H1). injection H1 as <-. reflexivity.
      - eapply IH; [exact H|discriminate]. }
    exact (G _ _ _ E Hne). }
  rewrite E. cbn [bind for_each]. unfold lc_term at 1. rewrite En, Ho, Hq, A2. cbn [get bind]. rewrite A1.
  destruct Hd as [Hd|Hd].
  - rewrite (lspace_eqb_ne _ _ Hd). reflexivity.
  - destruct (lspace_eqb (od_space o) sp); cbn [cassert bind]; [|reflexivity].
    rewrite (q_eqb_ne q q') by congruence. reflexivity.
Qed.
End LinComb.

(** * C70: a combination that names itself *)
Definition y_space : lspace := [(LL SP 0 1, [0%Z])].
Definition y_op (v : R) : obdata := ObData y_space (Some (0, 0, 0)%Z) [(0, 0)]%nat [Mat 1 1 (fun _ _ => v)].
Definition y_mk : lspace -> Z * Z * Z -> lsectors := fun _ _ => [(0, 0)]%nat.
Lemma self_reference : exists mk ops id co od m,
  assoc ops id = None /\ In id (map fst co) /\ linear_combination mk ops id co = Ok ((id, od) :: ops)
  /\ nth_error (od_blocks od) 0 = Some m /\ at_ m 0 0 = 2 * (1 * ob_element ops "T" 0 0 0).
Proof.
  exists y_mk, [("T", y_op 5)], "H", [("T", 1); ("H", 1)].
  eexists. eexists. split; [reflexivity|]. split; [right; left; reflexivity|]. split.
  - cbn -[Rmult Rplus IZR]. reflexivity.
  - split; [reflexivity|]. cbn -[Rmult Rplus IZR]. ring.
Qed.
