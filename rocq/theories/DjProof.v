(** C158: proofs about the function V_Daejeon16. *)
From Coq Require Import List ZArith Reals Bool Lia Lra.
From Verif Require Import Base BaseLemmas RMat OscModel BlockModel MoshModel JpvModel JpvSpec IsoModel TrfModel TrfSpec RmeModel DjData DjModel DjSpec.
Import ListNotations.
Open Scope Z_scope.
Open Scope outcome_scope.

(** * Checks of the tables *)
Definition below31 (p : nat -> nat -> bool) : bool := forallb (fun i => forallb (p i) (seq 0 31)) (seq 0 31).
Lemma below31_ok : forall p i j, below31 p = true -> (i < 31)%nat -> (j < 31)%nat -> p i j = true.
Proof. intros p i j H Hi Hj. unfold below31 in H. rewrite forallb_forall in H. specialize (H i (proj2 (in_seq _ _ _) (conj (Nat.le_0_l _) Hi))). rewrite forallb_forall in H. apply H. apply in_seq. lia. Qed.
Definition channel_entry (c : channel) (i j : nat) : bool :=
  let z := tabulated (ch_J c) (ch_S c) (ch_l c) i (ch_lp c) j in
  if (Z.of_nat i + 1 <=? ch_n c) && (Z.of_nat j + 1 <=? ch_np c) then
    match subscript (ch_table c) (ch_off c + Z.of_nat i + 1) (ch_offp c + Z.of_nat j + 1) with Ok x => x =? z | _ => false end
  else z =? 0.
Definition channel_ok (c : channel) : bool := (ch_n c <=? 31) && (ch_np c <=? 31) && below31 (channel_entry c).
Lemma channels_ok : forallb channel_ok channels = true.
Proof. vm_compute. reflexivity. Qed.
Definition labelled (J S L L' : Z) : bool := existsb (fun c => (J =? ch_J c) && (S =? ch_S c) && (L =? ch_l c) && (L' =? ch_lp c)) channels.
Definition channel_pairs (J : Z) : list (Z * Z * Z) :=
  (0, J, J) :: (1, (if J =? 0 then 1 else J), (if J =? 0 then 1 else J)) :: if J =? 0 then [] else [(1, J - 1, J - 1); (1, J - 1, J + 1); (1, J + 1, J - 1); (1, J + 1, J + 1)].
Lemma all_labelled : forallb (fun J => forallb (fun p => labelled J (fst (fst p)) (snd (fst p)) (snd p)) (channel_pairs J)) [0; 1; 2; 3; 4; 5; 6] = true.
Proof. vm_compute. reflexivity. Qed.
Lemma labelled_ok : forall J S L L', 0 <= J <= 6 -> In (S, L, L') (channel_pairs J) -> labelled J S L L' = true.
Proof.
  intros J S L L' HJ Hin. pose proof all_labelled as H. rewrite forallb_forall in H. assert (HI : In J [0; 1; 2; 3; 4; 5; 6]) by (cbn; lia). specialize (H J HI). rewrite forallb_forall in H. exact (H _ Hin).
Qed.
Lemma tabulated_label : forall J S L n L' n', tabulated J S L n L' n' <> 0 -> (n < 31)%nat /\ (n' < 31)%nat /\ 0 <= J <= 6 /\ In (S, L, L') (channel_pairs J).
Proof.
  intros J S L n L' n' H. unfold tabulated in H. destruct ((0 <=? J) && (J <=? 6) && Nat.ltb n 31 && Nat.ltb n' 31) eqn:E; [|congruence]. rewrite !andb_true_iff, !Z.leb_le, !Nat.ltb_lt in E. destruct E as [[[J0 J6] Hn] Hn'].
  split; [exact Hn|]. split; [exact Hn'|]. split; [lia|]. unfold channel_pairs. destruct (Z.eqb_spec S 0) as [->|].
  - destruct ((L =? J) && (L' =? J)) eqn:E; [|congruence]. rewrite andb_true_iff, !Z.eqb_eq in E. destruct E as [-> ->]. left. reflexivity.
  - destruct (Z.eqb_spec S 1) as [->|]; [|congruence]. right. destruct (Z.eqb_spec J 0) as [->|].
    + destruct ((L =? 1) && (L' =? 1)) eqn:E; [|congruence]. rewrite andb_true_iff, !Z.eqb_eq in E. destruct E as [-> ->]. left. reflexivity.
    + destruct ((L =? J) && (L' =? J)) eqn:E; [rewrite andb_true_iff, !Z.eqb_eq in E; destruct E as [-> ->]; left; reflexivity|].
      destruct ((lower J L || upper J L) && (lower J L' || upper J L')) eqn:E'; [|congruence]. unfold lower, upper in E'. rewrite andb_true_iff, !Bool.orb_true_iff, !Z.eqb_eq in E'. right.
      destruct E' as [[->| ->] [->| ->]]; cbn [In]; auto 6.
Qed.
Section Function.
Variable single : R -> R.
Notation v16 := (v_daejeon16 single).
Hypothesis single_0 : single 0%R = 0%R.
Lemma constant_0 : constant single 0 = 0%R.
Proof. unfold constant. replace (0 / IZR (10 ^ 15))%R with 0%R by (unfold Rdiv; ring). exact single_0. Qed.
Lemma tabulated_far : forall J S L n L' n', (31 <= n)%nat \/ (31 <= n')%nat -> tabulated J S L n L' n' = 0.
Proof. intros J S L n L' n' H. destruct (Z.eq_dec (tabulated J S L n L' n') 0) as [|Hn]; [assumption|]. apply tabulated_label in Hn. lia. Qed.
(** the element of the table, in MeV and with the phases of the oscillator functions that are positive at the origin *)
Theorem v_table : forall J S L n L' n', v16 (Z.of_nat n) (Z.of_nat n') L L' J S 1 0 = Ok (daejeon single J S L n L' n').
Proof.
  intros J S L n L' n'. unfold v_daejeon16. change (1 =? 0) with false. change (0 =? 1) with false. cbv iota zeta. unfold daejeon. fold (constant single (tabulated J S L n L' n')).
  destruct (find _ channels) as [c|] eqn:Ef.
  - apply find_some in Ef. destruct Ef as [Hin Hl]. rewrite !andb_true_iff, !Z.eqb_eq in Hl. destruct Hl as [[[-> ->] ->] ->].
    pose proof channels_ok as Hc. rewrite forallb_forall in Hc. specialize (Hc c Hin). unfold channel_ok in Hc. rewrite !andb_true_iff, !Z.leb_le in Hc. destruct Hc as [[H1 H2] H3].
    destruct (le_lt_dec 31 n) as [Hn|Hn].
    { rewrite tabulated_far by auto. rewrite (proj2 (Z.leb_gt _ _)) by lia. cbn [andb bind]. rewrite constant_0. reflexivity. }
    destruct (le_lt_dec 31 n') as [Hn'|Hn'].
    { rewrite tabulated_far by auto. rewrite (proj2 (Z.leb_gt (Z.of_nat n' + 1) _)) by lia. rewrite andb_false_r. cbn [bind]. rewrite constant_0. reflexivity. }
    apply (below31_ok _ n n') in H3; [|assumption|assumption]. unfold channel_entry in H3. destruct ((Z.of_nat n + 1 <=? ch_n c) && (Z.of_nat n' + 1 <=? ch_np c)).
    + destruct (subscript _ _ _) as [x| | |]; try discriminate. apply Z.eqb_eq in H3. subst x. reflexivity.
    + apply Z.eqb_eq in H3. rewrite H3. cbn [bind]. rewrite constant_0. reflexivity.
  - cbn [bind]. assert (Ht : tabulated J S L n L' n' = 0).
    { destruct (Z.eq_dec (tabulated J S L n L' n') 0) as [|Hn]; [assumption|]. apply tabulated_label in Hn. destruct Hn as (_ & _ & HJ & Hp). pose proof (labelled_ok J S L L' HJ Hp) as Hl. unfold labelled in Hl.
      apply existsb_exists in Hl. destruct Hl as (c & Hin & Hm). pose proof (find_none _ _ Ef c Hin) as Hno. cbv beta in Hno. congruence. }
    rewrite Ht, constant_0. reflexivity.
Qed.
(** the other units and phases *)
Theorem v_options : forall J S L n L' n' keyhw keyph,
  v16 (Z.of_nat n) (Z.of_nat n') L L' J S keyhw keyph = Ok (daejeon single J S L n L' n' / (if keyhw =? 0 then 25 else 1) * (if keyph =? 1 then (-1) ^ (n + n') else 1))%R.
Proof.
  intros J S L n L' n' keyhw keyph. pose proof (v_table J S L n L' n') as H. unfold v_daejeon16 in *. change (1 =? 0) with false in H. change (0 =? 1) with false in H. cbv iota zeta in H |- *.
  destruct (match find _ channels with Some c => _ | None => _ end) as [x| | |]; try discriminate. cbn [bind] in *. injection H as ->. f_equal.
  assert (Hp : (if Z.even (Z.of_nat n + Z.of_nat n') then 1 else -1)%R = ((-1) ^ (n + n'))%R).
  { rewrite <- Nat2Z.inj_add. generalize (n + n')%nat. induction n0 as [|k IH]; [reflexivity|]. rewrite Nat2Z.inj_succ, Z.even_succ, <- Z.negb_even. cbn [pow]. rewrite <- IH. destruct (Z.even (Z.of_nat k)); cbn [negb]; ring. }
  destruct (keyhw =? 0), (keyph =? 1); rewrite ?Hp; field.
Qed.
(** negative numbers of nodes, where the array has no other elements before *)
Theorem v_undefined : forall J n n', 0 <= J <= 6 -> n < 0 \/ n' < 0 -> n <= 27 -> n' <= 27 -> forall keyhw keyph, v16 n n' J J J 0 keyhw keyph = UB.
Proof.
  intros J n n' HJ Hn H1 H2 keyhw keyph. unfold v_daejeon16.
  assert (HI : In J [0; 1; 2; 3; 4; 5; 6]) by (cbn; lia).
  assert (U : forall c, ch_off c = 0 -> ch_offp c = 0 -> 28 <= ch_n c -> 28 <= ch_np c ->
    (if (n + 1 <=? ch_n c) && (n' + 1 <=? ch_np c) then z <- subscript (ch_table c) (ch_off c + n + 1) (ch_offp c + n' + 1) ;; Ok (constant single z) else Ok 0%R) = UB).
  { intros c O1 O2 N1 N2. rewrite O1, O2, (proj2 (Z.leb_le (n + 1) _)), (proj2 (Z.leb_le (n' + 1) _)) by lia. cbn [andb]. unfold subscript.
    destruct Hn as [Hn|Hn]; [rewrite (proj2 (Z.ltb_lt (0 + n + 1) 1)) by lia; reflexivity|rewrite (proj2 (Z.ltb_lt (0 + n' + 1) 1)) by lia; rewrite Bool.orb_true_r; reflexivity]. }
  destruct HI as [<-|[<-|[<-|[<-|[<-|[<-|[<-|[]]]]]]]];
    match goal with |- context [find ?f channels] => let r := eval lazy beta iota delta [find channels ch_J ch_S ch_l ch_lp andb Z.eqb Pos.eqb] in (find f channels) in change (find f channels) with r end;
    cbv iota; rewrite U by (cbn; lia); reflexivity.
Qed.
End Function.
(** * Symmetry, and the range of the tables *)
Definition symmetric31 (J S L L' : Z) : bool := below31 (fun i j => tabulated J S L i L' j =? tabulated J S L' j L i).
Definition range31 (J S L L' : Z) : bool := below31 (fun i j => (tabulated J S L i L' j =? 0) || ((2 * Z.of_nat i + L <=? 60) && (2 * Z.of_nat j + L' <=? 60))).
Lemma all_symmetric : forallb (fun J => forallb (fun p => symmetric31 J (fst (fst p)) (snd (fst p)) (snd p) && range31 J (fst (fst p)) (snd (fst p)) (snd p)) (channel_pairs J)) [0; 1; 2; 3; 4; 5; 6] = true.
Proof. vm_compute. reflexivity. Qed.
Lemma checked : forall J S L n L' n', tabulated J S L n L' n' <> 0 -> tabulated J S L n L' n' = tabulated J S L' n' L n /\ 2 * Z.of_nat n + L <= 60 /\ 2 * Z.of_nat n' + L' <= 60.
Proof.
  intros J S L n L' n' Hn. destruct (tabulated_label _ _ _ _ _ _ Hn) as (H1 & H2 & HJ & Hp). pose proof all_symmetric as H. rewrite forallb_forall in H. assert (HI : In J [0; 1; 2; 3; 4; 5; 6]) by (cbn; lia).
  specialize (H J HI). rewrite forallb_forall in H. specialize (H _ Hp). cbn [fst snd] in H. rewrite andb_true_iff in H. destruct H as [Ha Hb]. apply (below31_ok _ n n') in Ha; [|assumption|assumption]. apply (below31_ok _ n n') in Hb; [|assumption|assumption].
  apply Z.eqb_eq in Ha. split; [exact Ha|]. apply Bool.orb_true_iff in Hb. rewrite Z.eqb_eq, andb_true_iff, !Z.leb_le in Hb. tauto.
Qed.
Theorem tabulated_symmetric : forall J S L n L' n', tabulated J S L n L' n' = tabulated J S L' n' L n.
Proof.
  intros J S L n L' n'. destruct (Z.eq_dec (tabulated J S L n L' n') 0) as [E|Hn]; [|apply checked; exact Hn]. destruct (Z.eq_dec (tabulated J S L' n' L n) 0) as [E'|Hn']; [congruence|]. symmetry. apply checked. exact Hn'.
Qed.
Theorem daejeon_symmetric : forall single, symmetric_V (daejeon single).
Proof. intros single J S L i L' j. unfold daejeon. rewrite tabulated_symmetric. reflexivity. Qed.
(** elements that are not zero *)
Theorem daejeon_range : forall single, single 0%R = 0%R -> forall J S L n L' n', daejeon single J S L n L' n' <> 0%R ->
  0 <= J <= 6 /\ (S = 0 \/ S = 1) /\ Z.even (L - L') = true /\ couples L S J /\ couples L' S J /\ 2 * Z.of_nat n + L <= 60 /\ 2 * Z.of_nat n' + L' <= 60.
Proof.
  intros single Hs J S L n L' n' H. assert (Hn : tabulated J S L n L' n' <> 0).
  { intros E. apply H. unfold daejeon. rewrite E. replace (0 / IZR (10 ^ 15))%R with 0%R by (unfold Rdiv; ring). exact Hs. }
  destruct (tabulated_label _ _ _ _ _ _ Hn) as (_ & _ & HJ & Hp). destruct (checked _ _ _ _ _ _ Hn) as (_ & R1 & R2). split; [exact HJ|].
  unfold channel_pairs in Hp. unfold couples.
  destruct Hp as [Hp|[Hp|Hp]]; [injection Hp as <- <- <-; rewrite Z.sub_diag; repeat split; auto; lia| |].
  - destruct (Z.eqb_spec J 0) as [->|]; injection Hp as <- <- <-; rewrite Z.sub_diag; repeat split; auto; lia.
  - destruct (Z.eqb_spec J 0) as [->|]; [destruct Hp|]. destruct Hp as [Hp|[Hp|[Hp|[Hp|[]]]]]; injection Hp as <- <- <-; (split; [auto|]); (split; [match goal with |- Z.even ?x = true => replace x with (2 * (x / 2)) by (match goal with |- 2 * (?y / 2) = _ => first [replace y with 0 by lia; reflexivity|replace y with 2 by lia; reflexivity|replace y with (-2) by lia; reflexivity] end); rewrite Z.even_mul; reflexivity end|]); repeat split; lia.
Qed.
