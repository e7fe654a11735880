(** The LS to jj recoupling, the composition of the steps, and the transformation of the identity. *)
From Coq Require Import List ZArith Reals Bool Lia Lra.
From Verif Require Import Base BaseLemmas RMat OscModel OscFinal BlockModel BlockProof ObioModel ObioFinal MoshModel JpvModel JpvSpec JpvProof IsoModel XformFinal TrfModel TrfSpec TrfProof.
Import ListNotations.
Open Scope Z_scope.

Lemma map_blocks_map : forall A B (f : A -> outcome B) g l, (forall x, In x l -> f x = Ok (g x)) -> map_blocks f l = Ok (map g l).
Proof.
  intros A B f g l. induction l as [|x l IH]; intros H; [reflexivity|]. cbn. rewrite (H x) by (left; reflexivity). cbn [bind].
  rewrite IH by (intros; apply H; right; assumption). reflexivity.
Qed.
Lemma add_blocks : forall A (l : list A) (body : A -> mat R -> outcome (mat R)) nb nk (g : A -> nat -> nat -> R),
  (forall x, In x l -> exists W, (forall m, body x m = madd_to m W) /\ rows W = nb /\ cols W = nk /\ forall i j, (i < nb)%nat -> (j < nk)%nat -> at_ W i j = g x i j) ->
  forall m, rows m = nb -> cols m = nk -> exists m', for_each l body m = Ok m' /\ rows m' = nb /\ cols m' = nk
  /\ forall i j, (i < nb)%nat -> (j < nk)%nat -> at_ m' i j = (at_ m i j + lsum l (fun x => g x i j))%R.
Proof.
  intros A l body nb nk g. induction l as [|x l IH]; intros H m Hr Hc.
  - exists m. cbn. repeat split; auto. intros. ring.
  - destruct (H x (or_introl eq_refl)) as (W & EW & RW & CW & HW). cbn [for_each]. rewrite EW. unfold madd_to.
    rewrite Hr, Hc, RW, CW, !Nat.eqb_refl. cbn [andb cassert bind].
    destruct (IH (fun y Hy => H y (or_intror Hy)) (Mat nb nk (fun i j => at_ m i j + at_ W i j)%R) eq_refl eq_refl) as (m' & E & Rm & Cm & Hat).
    exists m'. split; [exact E|]. split; [exact Rm|]. split; [exact Cm|]. intros i j Hi Hj. rewrite Hat by assumption. cbn [at_ lsum]. rewrite HW by assumption. ring.
Qed.
Lemma four_eqb_ok : forall x y, four_eqb x y = true <-> x = y.
Proof.
  intros [[[a b] c] d] [[[a' b'] c'] d']. unfold four_eqb. rewrite !andb_true_iff, !Z.eqb_eq. split.
  - intros [[[-> ->] ->] ->]. reflexivity.
  - intros H. injection H as -> -> -> ->. tauto.
Qed.
Definition memb (a : four) (l : list four) : bool := existsb (four_eqb a) l.
Lemma memb_ok : forall a l, memb a l = true <-> In a l.
Proof.
  intros a l. unfold memb. rewrite existsb_exists. split.
  - intros (x & Hx & E). apply four_eqb_ok in E. subst. exact Hx.
  - intros H. exists a. split; [exact H|]. apply four_eqb_ok. reflexivity.
Qed.
Lemma four_dec : forall x y : four, {x = y} + {x <> y}.
Proof. intros x y. destruct (four_eqb x y) eqn:E; [left; apply four_eqb_ok; exact E|right; intros H; apply four_eqb_ok in H; congruence]. Qed.
Lemma lsum_pick : forall (l : list four) a (f : four -> R), NoDup l -> lsum l (fun x => if four_eqb a x then f x else 0%R) = if memb a l then f a else 0%R.
Proof.
  intros l a f Hn. destruct (memb a l) eqn:E.
  - apply memb_ok in E. rewrite (lsum_one _ four_dec l a _ Hn E); [rewrite (proj2 (four_eqb_ok a a) eq_refl); reflexivity|].
    intros x _ Hx. destruct (four_eqb a x) eqn:E'; [apply four_eqb_ok in E'; congruence|reflexivity].
  - apply lsum_0. intros x Hx. destruct (four_eqb a x) eqn:E'; [|reflexivity]. apply four_eqb_ok in E'. subst. apply memb_ok in Hx. congruence.
Qed.
Lemma connected_ok : forall x X, connected x X = true <-> fst x = ls_of (fst X) (b_L (fst x)) (b_S (fst x)).
Proof.
  intros [[L S J T g N] l] [[J' T' g' N'] l']. unfold connected, ls_of. cbn. rewrite !andb_true_iff, !Z.eqb_eq. split.
  - intros [[[-> ->] ->] ->]. reflexivity.
  - intros H. injection H as -> -> -> ->. tauto.
Qed.
Lemma ls_couplings_in : forall J L S, 0 <= J -> In (L, S) (ls_couplings J) <-> (0 <= S <= 1 /\ 0 <= L /\ couples L S J).
Proof.
  intros J L S HJ. unfold ls_couplings. rewrite in_flat_map. split.
  - intros (s & Hs & Hi). apply in_map_iff in Hi. destruct Hi as (x & E & Hx). injection E as -> ->. apply in_zrange in Hx.
    assert (S = 0 \/ S = 1) by (destruct Hs as [H|[H|[]]]; auto). unfold couples. lia.
  - intros (HS & HL & HC). exists S. split; [assert (S = 0 \/ S = 1) as [->| ->] by lia; [left; reflexivity|right; left; reflexivity]|].
    apply in_map_iff. exists L. split; [reflexivity|]. apply in_zrange. unfold couples in HC. lia.
Qed.
Lemma nth_lt : forall A (l : list A) i x, nth_error l i = Some x -> (i < length l)%nat.
Proof. intros A l i x H. apply nth_error_Some. congruence. Qed.
Lemma bind_bind : forall A B C (m : outcome A) (f : A -> outcome B) (g : B -> outcome C), bind m (fun x => bind (f x) g) = bind (bind m f) g.
Proof. intros A B C [x| | |] f g; reflexivity. Qed.
Lemma NoDup_map_inj_in : forall A B (f : A -> B) l, (forall x y, In x l -> In y l -> f x = f y -> x = y) -> NoDup l -> NoDup (map f l).
Proof.
  intros A B f l H Hn. induction Hn as [|x l Hx Hn IH]; [constructor|]. cbn. constructor.
  - intros Hi. apply in_map_iff in Hi. destruct Hi as (y & E & Hy). assert (y = x) by (apply H; [right; exact Hy|left; reflexivity|exact E]). subst. contradiction.
  - apply IH. intros a b Ha Hb. apply H; right; assumption.
Qed.
Lemma NoDup_app_intro : forall A (l k : list A), NoDup l -> NoDup k -> (forall x, In x l -> In x k -> False) -> NoDup (l ++ k).
Proof.
  intros A l k Hl Hk D. induction Hl as [|x l Hx Hl IH]; [exact Hk|]. cbn. constructor.
  - intros Hi. apply in_app_or in Hi. destruct Hi as [Hi|Hi]; [contradiction|]. apply (D x); [left; reflexivity|exact Hi].
  - apply IH. intros y Hy. apply D. right. exact Hy.
Qed.
Lemma ls_couplings_nodup : forall J, NoDup (ls_couplings J).
Proof.
  intros J. unfold ls_couplings. cbn [flat_map]. rewrite app_nil_r. apply NoDup_app_intro.
  - apply FinFun.Injective_map_NoDup; [|apply NoDup_zrange]. intros a b E. injection E as ->. reflexivity.
  - apply FinFun.Injective_map_NoDup; [|apply NoDup_zrange]. intros a b E. injection E as ->. reflexivity.
  - intros [a b] H1 H2. apply in_map_iff in H1, H2. destruct H1 as (? & E & _). destruct H2 as (? & E' & _). congruence.
Qed.

(** * two-body LS to jj *)
Section Jj.
Variable u9j : Z -> Z -> Z -> Z -> Z -> Z -> Z -> R.
Variable flip : Z -> Z -> Z -> Z -> Z -> R.

Lemma jj_matrix_ok : forall ls X, connected ls X = true -> NoDup (snd ls) ->
  exists m, jj_matrix u9j ls X = Ok m /\ rows m = length (snd ls) /\ cols m = length (snd X)
  /\ forall u v a p, nth_error (snd ls) u = Some a -> nth_error (snd X) v = Some p ->
     at_ m u v = if four_eqb (orbs p) a then nine u9j p (b_L (fst ls)) (b_S (fst ls)) (b_J (fst ls)) else 0%R.
Proof.
  intros ls X HC Hn. unfold connected in HC. rewrite !andb_true_iff in HC. destruct HC as [[[H1 H2] H3] H4].
  unfold jj_matrix. rewrite H1, H2, H3, H4. cbn [cassert bind].
  destruct (fill_ok R 0%R (length (snd ls)) (length (snd X)) (fun i j =>
    bind (get (nth_error (snd X) j)) (fun s => let '((N1, l1, j1), (N2, l2, j2)) := s in
    match find_ix (four_eqb (N1, l1, N2, l2)) (snd ls) with
    | None => Ok 0%R
    | Some p => Ok (if Nat.eqb p i then u9j l1 j1 l2 j2 (b_L (fst ls)) (b_S (fst ls)) (b_J (fst ls)) else 0%R)
    end)) (fun i j => match nth_error (snd ls) i, nth_error (snd X) j with
      | Some a, Some p => if four_eqb (orbs p) a then nine u9j p (b_L (fst ls)) (b_S (fst ls)) (b_J (fst ls)) else 0%R | _, _ => 0%R end)) as (m & E & Er & Ec & Hat).
  - intros i j Hi Hj. destruct (nth_some _ _ i Hi) as [a Ha]. destruct (nth_some _ _ j Hj) as [p Hp]. rewrite Ha, Hp. cbn [get bind].
    destruct p as [[[N1 l1] j1] [[N2 l2] j2]]. cbn [orbs nine]. destruct (find_ix (four_eqb (N1, l1, N2, l2)) (snd ls)) as [w|] eqn:Ef.
    + apply find_ix_some in Ef. destruct Ef as (a' & Ha' & Ew). apply four_eqb_ok in Ew. subst a'. f_equal.
      destruct (Nat.eqb_spec w i) as [->|Hne].
      * rewrite Ha in Ha'. injection Ha' as ->. rewrite (proj2 (four_eqb_ok _ _) eq_refl). reflexivity.
      * destruct (four_eqb (N1, l1, N2, l2) a) eqn:E'; [|reflexivity]. apply four_eqb_ok in E'. subst a. exfalso. apply Hne.
        apply (NoDup_nth_error (snd ls)); [exact Hn| |congruence]. apply nth_error_Some. congruence.
    + rewrite (find_ix_none _ _ _ Ef a (nth_error_In _ _ Ha)). reflexivity.
  - exists m. split; [exact E|]. split; [exact Er|]. split; [exact Ec|]. intros u v a p Ha Hp. rewrite Hat; [rewrite Ha, Hp; reflexivity| |]; apply nth_error_Some; congruence.
Qed.

Definition linked (sp : list lssub) (X : jjsub) : list nat :=
  filter (fun i => match nth_error sp i with Some x => connected x X | None => false end) (seq 0 (length sp)).
Lemma linked_in : forall sp X i, In i (linked sp X) <-> exists x, nth_error sp i = Some x /\ connected x X = true.
Proof.
  intros sp X i. unfold linked. rewrite filter_In, in_seq. split.
  - intros [_ H]. destruct (nth_error sp i) as [x|]; [|discriminate]. exists x. auto.
  - intros (x & Hx & HC). rewrite Hx. split; [|exact HC]. assert (i < length sp)%nat by (apply nth_error_Some; congruence). lia.
Qed.
Definition mat_of (sp : list lssub) (X : jjsub) (i : nat) : mat R :=
  match nth_error sp i with Some x => match jj_matrix u9j x X with Ok m => m | _ => mzero 0%R 0 0 end | None => mzero 0%R 0 0 end.
Lemma mat_of_ok : forall sp X i x, tb_space sp -> nth_error sp i = Some x -> connected x X = true ->
  jj_matrix u9j x X = Ok (mat_of sp X i) /\ rows (mat_of sp X i) = length (snd x) /\ cols (mat_of sp X i) = length (snd X)
  /\ forall u v a p, nth_error (snd x) u = Some a -> nth_error (snd X) v = Some p ->
     at_ (mat_of sp X i) u v = if four_eqb (orbs p) a then nine u9j p (b_L (fst x)) (b_S (fst x)) (b_J (fst x)) else 0%R.
Proof.
  intros sp X i x [_ Hsp] Hx HC. rewrite Forall_forall in Hsp. destruct (Hsp x (nth_error_In _ _ Hx)) as (_ & Hn & _).
  destruct (jj_matrix_ok x X HC Hn) as (m & E & H). unfold mat_of. rewrite Hx, E. split; [reflexivity|exact H].
Qed.
Lemma contributing_ok : forall sp X, tb_space sp -> contributing u9j sp X = Ok (map (fun i => (i, mat_of sp X i)) (linked sp X)).
Proof.
  intros sp X Hsp. unfold contributing. apply map_blocks_map. intros i Hi. apply linked_in in Hi. destruct Hi as (x & Hx & HC).
  rewrite Hx. cbn [get bind]. destruct (mat_of_ok sp X i x Hsp Hx HC) as (E & _). rewrite E. reflexivity.
Qed.
(** sum over the subspaces linked to [X] of the terms of a state *)
Lemma linked_sum : forall sp jj X p (f : lab -> R), tb_space sp -> jj_space jj -> ls_complete sp jj -> In X jj -> In p (snd X) ->
  lsum (linked sp X) (fun i => match nth_error sp i with Some x => if memb (orbs p) (snd x) then f (fst x) else 0%R | None => 0%R end)
  = lsum (ls_couplings (a_J (fst X))) (fun c => let x := ls_of (fst X) (fst c) (snd c) in if tb_stateb x (orbs p) then f x else 0%R).
Proof.
  intros sp jj X p f [Hnd Hsp] Hjj Hls HX Hp. unfold jj_space in Hjj. rewrite Forall_forall in Hsp, Hjj. destruct (Hjj X HX) as (HJ & HT & Hst).
  specialize (Hst p Hp).
  set (has := fun i => match nth_error sp i with Some x => memb (orbs p) (snd x) | None => false end).
  set (key := fun i => match nth_error sp i with Some x => (b_L (fst x), b_S (fst x)) | None => (0, 0) end).
  rewrite (lsum_ext _ _ _ (fun i => if has i then f (ls_of (fst X) (fst (key i)) (snd (key i))) else 0%R)).
  2:{ intros i Hi. apply linked_in in Hi. destruct Hi as (x & Hx & HC). unfold has, key. rewrite Hx. cbn [fst snd]. destruct (memb _ _); [|reflexivity].
      apply connected_ok in HC. rewrite HC at 1. reflexivity. }
  rewrite <- (lsum_filter nat has). rewrite <- (lsum_map _ _ key (filter has (linked sp X)) (fun c => f (ls_of (fst X) (fst c) (snd c)))).
  cbv zeta. rewrite <- (lsum_filter (Z * Z) (fun c => tb_stateb (ls_of (fst X) (fst c) (snd c)) (orbs p))).
  assert (Hkey : forall i x, nth_error sp i = Some x -> connected x X = true -> fst x = ls_of (fst X) (fst (key i)) (snd (key i))).
  { intros i x Hx HC. unfold key. rewrite Hx. apply connected_ok. exact HC. }
  apply lsum_nodup_eq.
  - apply NoDup_map_inj_in; [|apply NoDup_filter, NoDup_filter, seq_NoDup].
    intros i k Hi Hk E. apply filter_In in Hi, Hk. destruct Hi as [Hi _]. destruct Hk as [Hk _]. apply linked_in in Hi, Hk.
    destruct Hi as (x & Hx & HC). destruct Hk as (y & Hy & HC'). apply (NoDup_nth_error (map fst sp)); [exact Hnd| |].
    + rewrite map_length. eapply nth_lt. exact Hx.
    + rewrite (map_nth_error fst _ _ Hx), (map_nth_error fst _ _ Hy). rewrite (Hkey _ _ Hx HC), (Hkey _ _ Hy HC'), E. reflexivity.
  - apply NoDup_filter, ls_couplings_nodup.
  - intros [L S]. rewrite in_map_iff, filter_In. cbn [fst snd]. rewrite (ls_couplings_in _ _ _ HJ). split.
    + intros (i & E & Hi). apply filter_In in Hi. destruct Hi as [Hi Hh]. apply linked_in in Hi. destruct Hi as (x & Hx & HC).
      unfold has in Hh. rewrite Hx in Hh. apply memb_ok in Hh. destruct (Hsp x (nth_error_In _ _ Hx)) as (Lx & _ & Sx). specialize (Sx _ Hh).
      pose proof (Hkey i x Hx HC) as Ek. rewrite E in Ek. cbn [fst snd] in Ek. rewrite Ek in Lx, Sx.
      destruct Lx as (H1 & H2 & _ & H4 & _). cbn [ls_of b_L b_S b_J] in H1, H2, H4. split; [auto|].
      destruct p as [[[N1 l1] j1] [[N2 l2] j2]]. cbn [orbs] in *. destruct Sx as (_ & _ & _ & Hc & Ha). unfold tb_stateb. rewrite (proj2 (couplesb_ok _ _ _) Hc). cbn [andb].
      destruct (Z.eqb_spec N1 N2) as [->|]; [|reflexivity]. destruct (Z.eqb_spec l1 l2) as [->|]; [|reflexivity]. cbn [andb negb orb]. apply Ha. reflexivity.
    + intros ((HS & HL & HC) & Ht).
      destruct (Hls X p L S HX Hp HS HC HL) as (x & Hx & Ex & Hpx).
      { destruct p as [[[N1 l1] j1] [[N2 l2] j2]]. cbn [orbs] in *. destruct Hst as (O1 & O2 & EN). unfold tb_stateb in Ht. apply andb_true_iff in Ht. destruct Ht as [Hc Ha].
        apply couplesb_ok in Hc. unfold tb_state. repeat (split; [assumption|]). intros E. injection E as -> ->. rewrite !Z.eqb_refl in Ha. exact Ha. }
      apply In_nth_error in Hx. destruct Hx as [i Hx]. exists i. unfold key. rewrite Hx. rewrite Ex. split; [reflexivity|]. apply filter_In. split.
      * apply linked_in. exists x. split; [exact Hx|]. apply connected_ok. rewrite Ex. reflexivity.
      * unfold has. rewrite Hx. apply memb_ok. exact Hpx.
Qed.
Lemma sand_pick : forall (l k : list four) U M V i j a b f h (g : four -> four -> R), NoDup l -> NoDup k ->
  (forall u x, nth_error l u = Some x -> U u i = if four_eqb a x then f else 0%R) ->
  (forall u v x y, nth_error l u = Some x -> nth_error k v = Some y -> M u v = g x y) ->
  (forall v y, nth_error k v = Some y -> V v j = if four_eqb b y then h else 0%R) ->
  sand (length l) (length k) U M V i j = if memb a l then if memb b k then (f * h * g a b)%R else 0%R else 0%R.
Proof.
  intros l k U M V i j a b f h g Hl Hk HU HM HV.
  rewrite (sand_states _ _ l k U M V i j (fun x => if four_eqb a x then f else 0%R) g (fun y => if four_eqb b y then h else 0%R)) by assumption.
  rewrite (lsum_ext _ _ _ (fun x => if four_eqb a x then (lsum k (fun y => if four_eqb b y then f * h * g x y else 0))%R else 0%R)).
  2:{ intros x _. destruct (four_eqb a x).
      - apply lsum_ext. intros y _. destruct (four_eqb b y); ring.
      - apply lsum_0. intros y _. ring. }
  rewrite (lsum_pick l a (fun x => lsum k (fun y => if four_eqb b y then (f * h * g x y)%R else 0%R)) Hl).
  destruct (memb a l); [|reflexivity]. apply (lsum_pick k b (fun y => (f * h * g a y)%R) Hk).
Qed.
Lemma jjjt_matrix_ok : forall o sp jj c T0 sectors ms H X Y, tb_space sp -> jj_space jj -> ls_complete sp jj -> stores_ls sp o c H -> hermitian flip b_J b_T H ->
  in_range o T0 -> nth_error c (Z.to_nat T0) = Some (sectors, ms) -> In X jj -> In Y jj ->
  jt_rule (o_J0 o) T0 (o_g0 o) (a_J (fst X)) (a_T (fst X)) (a_g (fst X)) (a_J (fst Y)) (a_T (fst Y)) (a_g (fst Y)) ->
  exists m, jjjt_matrix u9j flip sp sectors ms T0 X Y = Ok m /\ rows m = length (snd X) /\ cols m = length (snd Y)
  /\ forall u v p q, nth_error (snd X) u = Some p -> nth_error (snd Y) v = Some q -> at_ m u v = jj_rme u9j H T0 (fst X) p (fst Y) q.
Proof.
  intros o sp jj c T0 sectors ms H X Y Hsp Hjj Hls Hst Hh Hr Hc HX HY Hj.
  destruct (Hst T0 Hr) as (sectors' & ms' & Hc' & Hnd & Hsec & Hel). rewrite Hc in Hc'. injection Hc' as <- <-.
  unfold jjjt_matrix. rewrite !contributing_ok by exact Hsp. cbn [bind].
  set (val := fun (ib ik : nat) (i j : nat) => match nth_error sp ib, nth_error sp ik, nth_error (snd X) i, nth_error (snd Y) j with
    | Some b, Some k, Some p, Some q => if memb (orbs p) (snd b) then if memb (orbs q) (snd k) then
        (nine u9j p (b_L (fst b)) (b_S (fst b)) (b_J (fst b)) * nine u9j q (b_L (fst k)) (b_S (fst k)) (b_J (fst k)) * H T0 (fst b) (orbs p) (fst k) (orbs q))%R
        else 0%R else 0%R
    | _, _, _, _ => 0%R end).
  match goal with |- context [for_each _ ?f _] => set (body := f) end.
  destruct (add_blocks _ (list_prod (map (fun i => (i, mat_of sp X i)) (linked sp X)) (map (fun i => (i, mat_of sp Y i)) (linked sp Y))) body
    (length (snd X)) (length (snd Y)) (fun z i j => val (fst (fst z)) (fst (snd z)) i j)) with (m := mzero 0%R (length (snd X)) (length (snd Y))) as (m & E & Rm & Cm & Hat);
    [|reflexivity|reflexivity|].
  - intros [[ib U] [ik V]] Hz. apply in_prod_iff in Hz. destruct Hz as [Hb Hk]. apply in_map_iff in Hb, Hk.
    destruct Hb as (ib' & Eb & Hb). injection Eb as -> <-. destruct Hk as (ik' & Ek & Hk). injection Ek as -> <-.
    apply linked_in in Hb, Hk. destruct Hb as (b & Hb & Cb). destruct Hk as (k & Hk & Ck). cbn [fst snd].
    destruct (mat_of_ok sp X ib b Hsp Hb Cb) as (_ & RU & CU & HU). destruct (mat_of_ok sp Y ik k Hsp Hk Ck) as (_ & RV & CV & HV).
    pose proof (proj1 (connected_ok _ _) Cb) as Lb. pose proof (proj1 (connected_ok _ _) Ck) as Lk.
    assert (Hfin : forall A, rows A = length (snd b) -> cols A = length (snd k) ->
      (forall u v x y, nth_error (snd b) u = Some x -> nth_error (snd k) v = Some y -> at_ A u v = H T0 (fst b) x (fst k) y) ->
      exists W, bind (mmul (transpose (mat_of sp X ib)) A) (fun p => mmul p (mat_of sp Y ik)) = Ok W /\ rows W = length (snd X) /\ cols W = length (snd Y)
      /\ forall i j, (i < length (snd X))%nat -> (j < length (snd Y))%nat -> at_ W i j = val ib ik i j).
    { intros A RA CA HA. rewrite (sand_mm _ _ _ _ _ RU RA CA RV). eexists. split; [reflexivity|]. cbn [rows cols at_]. split; [exact CU|]. split; [exact CV|].
      intros i j Hi Hj'. destruct (nth_some _ _ i Hi) as [p Hp]. destruct (nth_some _ _ j Hj') as [q Hq]. unfold val. rewrite Hb, Hk, Hp, Hq.
      destruct Hsp as [_ Hsp]. rewrite Forall_forall in Hsp. destruct (Hsp b (nth_error_In _ _ Hb)) as (_ & Nb & _). destruct (Hsp k (nth_error_In _ _ Hk)) as (_ & Nk & _).
      apply (sand_pick (snd b) (snd k) _ _ _ i j (orbs p) (orbs q) (nine u9j p (b_L (fst b)) (b_S (fst b)) (b_J (fst b))) (nine u9j q (b_L (fst k)) (b_S (fst k)) (b_J (fst k)))
        (fun x y => H T0 (fst b) x (fst k) y) Nb Nk).
      - intros u x Hx. apply (HU _ _ _ _ Hx Hp).
      - exact HA.
      - intros v y Hy. apply (HV _ _ _ _ Hy Hq). }
    assert (JX : b_J (fst b) = a_J (fst X) /\ b_T (fst b) = a_T (fst X) /\ b_g (fst b) = a_g (fst X)) by (rewrite Lb; auto).
    assert (JY : b_J (fst k) = a_J (fst Y) /\ b_T (fst k) = a_T (fst Y) /\ b_g (fst k) = a_g (fst Y)) by (rewrite Lk; auto).
    destruct JX as (E1 & E2 & E3). destruct JY as (E4 & E5 & E6). rewrite <- E1, <- E2, <- E3, <- E4, <- E5, <- E6 in Hj.
    destruct (min_max_cases ib ik) as [(El & Emin & Emax & Hlt)|(El & Emin & Emax & Hle)].
    + assert (Hin : In (ik, ib) sectors).
      { apply Hsec. split; [lia|]. exists k, b. split; [exact Hk|]. split; [exact Hb|]. destruct Hj as (A1 & A2 & A3). split; [apply couples_rot; exact A1|]. split; [apply couples_rot; exact A2|].
        rewrite <- A3. f_equal. lia. }
      apply In_nth_error in Hin. destruct Hin as [q Hq]. destruct (Hel q ik ib k b Hq Hk Hb) as (a & Ha & Ra & Ca & Hata).
      destruct (Hfin (Mat (cols a) (rows a) (fun i j => flip T0 (b_J (fst b)) (b_T (fst b)) (b_J (fst k)) (b_T (fst k)) * at_ a j i)%R)) as (W & EW & HW); [exact Ca|exact Ra| |].
      { intros u v x y Hx Hy. cbn [at_]. rewrite (Hata _ _ _ _ Hy Hx). symmetry. destruct Hsp as [_ Hsp]. rewrite Forall_forall in Hsp.
        destruct (Hsp b (nth_error_In _ _ Hb)) as ((B1 & B2 & B3 & B4 & _) & _). destruct (Hsp k (nth_error_In _ _ Hk)) as ((K1 & K2 & K3 & K4 & _) & _).
        apply Hh; unfold couples in *; lia. }
      exists W. split; [|exact HW]. intros m. unfold body. rewrite Hb, Hk. cbn [get bind]. rewrite Emin, Emax, (look_up_ok _ _ _ _ Hnd Hq). cbn [get bind]. rewrite Ha, El. cbn [get bind].
      rewrite bind_bind, EW. reflexivity.
    + assert (Hin : In (ib, ik) sectors). { apply Hsec. split; [exact Hle|]. exists b, k. auto. }
      apply In_nth_error in Hin. destruct Hin as [q Hq]. destruct (Hel q ib ik b k Hq Hb Hk) as (a & Ha & Ra & Ca & Hata).
      destruct (Hfin a Ra Ca Hata) as (W & EW & HW).
      exists W. split; [|exact HW]. intros m. unfold body. rewrite Hb, Hk. cbn [get bind]. rewrite Emin, Emax, (look_up_ok _ _ _ _ Hnd Hq). cbn [get bind]. rewrite Ha, El. cbn [get bind].
      rewrite bind_bind, EW. reflexivity.
  - exists m. split; [exact E|]. split; [exact Rm|]. split; [exact Cm|]. intros u v p q Hp Hq.
    assert (Hu : (u < length (snd X))%nat) by (apply nth_error_Some; congruence). assert (Hv : (v < length (snd Y))%nat) by (apply nth_error_Some; congruence).
    rewrite Hat by assumption. cbn [at_ mzero]. rewrite Rplus_0_l, lsum_prod, lsum_map. cbn [fst].
    rewrite (lsum_ext _ _ _ (fun ib => lsum (linked sp Y) (fun ik => val ib ik u v))) by (intros; rewrite lsum_map; reflexivity).
    unfold jj_rme.
    set (f := fun x => lsum (ls_couplings (a_J (fst Y))) (fun d => let y := ls_of (fst Y) (fst d) (snd d) in if tb_stateb y (orbs q) then
        (nine u9j p (b_L x) (b_S x) (b_J x) * nine u9j q (b_L y) (b_S y) (b_J y) * H T0 x (orbs p) y (orbs q))%R else 0%R)).
    rewrite (lsum_ext _ (linked sp X) _ (fun ib => match nth_error sp ib with Some b => if memb (orbs p) (snd b) then f (fst b) else 0%R | None => 0%R end)).
    2:{ intros ib Hib. apply linked_in in Hib. destruct Hib as (b & Hb & _). rewrite Hb. destruct (memb (orbs p) (snd b)) eqn:Eb.
        - set (g := fun y => (nine u9j p (b_L (fst b)) (b_S (fst b)) (b_J (fst b)) * nine u9j q (b_L y) (b_S y) (b_J y) * H T0 (fst b) (orbs p) y (orbs q))%R).
          transitivity (lsum (linked sp Y) (fun i => match nth_error sp i with Some y => if memb (orbs q) (snd y) then g (fst y) else 0%R | None => 0%R end)).
          2:{ refine (linked_sum sp jj Y q g Hsp Hjj Hls HY _). eapply nth_error_In. exact Hq. }
          apply lsum_ext. intros ik Hik. unfold val. rewrite Hb, Hp, Hq, Eb. destruct (nth_error sp ik); reflexivity.
        - apply lsum_0. intros ik Hik. unfold val. rewrite Hb, Hp, Hq, Eb. destruct (nth_error sp ik); reflexivity. }
    rewrite (linked_sum sp jj X p f) by (try assumption; eapply nth_error_In; eassumption).
    apply lsum_ext. intros [L S] _. cbn [fst snd]. cbv zeta. destruct (tb_stateb (ls_of (fst X) L S) (orbs p)); cbn [andb].
    + unfold f. apply lsum_ext. intros [L' S'] _. cbn [fst snd ls_of b_L b_S b_J]. reflexivity.
    + symmetry. apply lsum_0. reflexivity.
Qed.
Lemma to_jjjt_ok : forall o sp c jj H, 0 <= o_T0_min o -> o_T0_max o <= 2 -> tb_space sp -> jj_space jj -> ls_complete sp jj -> stores_ls sp o c H -> hermitian flip b_J b_T H ->
  exists c', to_jjjt u9j flip o sp c jj = Ok c' /\ stores_jj jj o c' (jj_rme u9j H).
Proof.
  intros o sp c jj H H0 H2 Hsp Hjj Hls Hst Hh.
  apply (fill_component _ _ a_J a_T a_g jj o _ c (fun T0 sectors ms x => bind (get (nth_error jj (fst x))) (fun b => bind (get (nth_error jj (snd x))) (fun k =>
    jjjt_matrix u9j flip sp sectors ms T0 b k)))); try assumption.
  intros T0 Hr. destruct (Hst T0 Hr) as (sectors & ms & Hc & _). exists sectors, ms. split; [exact Hc|].
  intros i k x y _ Hx Hy Hj. cbn [fst snd]. change (@nth_error jjsub jj i = Some x) in Hx. change (@nth_error jjsub jj k = Some y) in Hy. rewrite Hx, Hy. cbn [get bind].
  apply (jjjt_matrix_ok o sp jj c); try assumption; eapply nth_error_In; eassumption.
Qed.
End Jj.

(** * Composition *)
Section Chain.
Variable u6jz : Z -> Z -> Z -> Z -> Z -> Z -> R.
Variable racah1 : Z -> Z -> Z -> Z -> Z -> Z -> Z -> R.
Variable u9j : Z -> Z -> Z -> Z -> Z -> Z -> Z -> R.
Variable mosh : Z -> Z -> Z -> Z -> Z -> Z -> Z -> Z -> Z -> R.
Variable flip : Z -> Z -> Z -> Z -> Z -> R.

Lemma couplesb_rot : forall a b c, couplesb a b c = couplesb c b a.
Proof. intros a b c. apply eq_iff_eq_true. rewrite !couplesb_ok. split; apply couples_rot. Qed.
Lemma relcm_hermitian : forall Jmax J0 F, racah_flip racah1 flip J0 -> hermitian_rel flip F -> hermitian flip b_J b_T (relcm_rme u6jz racah1 Jmax J0 F).
Proof.
  intros Jmax J0 F Hr Hh T0 x [[[Nr lr] Nc] lc] y [[[Nr' lr'] Nc'] lc'] P1 P2 P3 P4. unfold relcm_rme.
  destruct (Z.eqb_spec Nc Nc') as [<-|Hn].
  2:{ rewrite (proj2 (Z.eqb_neq Nc' Nc)) by congruence. cbn [andb]. ring. }
  destruct (Z.eqb_spec lc lc') as [<-|Hn].
  2:{ rewrite (proj2 (Z.eqb_neq lc' lc)) by congruence. rewrite Z.eqb_refl. cbn [andb]. ring. }
  rewrite !Z.eqb_refl. cbn [andb]. rewrite <- lsum_scale, lsum_swap. apply lsum_ext. intros Jr' Hj'. rewrite <- lsum_scale. apply lsum_ext. intros Jr Hj.
  apply in_zrange in Hj, Hj'. rewrite (couplesb_rot Jr' J0 Jr).
  rewrite (andb_comm (couplesb lr' (b_S y) Jr' && couplesb lc (b_J y) Jr')).
  destruct (couplesb lr (b_S x) Jr && couplesb lc (b_J x) Jr && (couplesb lr' (b_S y) Jr' && couplesb lc (b_J y) Jr') && couplesb Jr J0 Jr') eqn:E; [|ring].
  rewrite !andb_true_iff, !couplesb_ok in E. destruct E as [[[_ E1] [_ E2]] _].
  rewrite (Hh T0 (lr, b_S x, Jr, b_T x)) by (cbn [rl_J rl_T]; lia). cbn [rl_J rl_T].
  assert (H : (racah1 Jr lc (b_J x) Jr' lc (b_J y) J0 * flip T0 Jr (b_T x) Jr' (b_T y) = flip T0 (b_J x) (b_T x) (b_J y) (b_T y) * racah1 Jr' lc (b_J y) Jr lc (b_J x) J0)%R).
  { apply Hr; unfold couples in *; lia. }
  transitivity (u6jz lr lc (b_L x) (b_J x) (b_S x) Jr * u6jz lr' lc (b_L y) (b_J y) (b_S y) Jr' * (racah1 Jr lc (b_J x) Jr' lc (b_J y) J0 * flip T0 Jr (b_T x) Jr' (b_T y))
    * F T0 (lr', b_S y, Jr', b_T y) Nr' (lr, b_S x, Jr, b_T x) Nr)%R; [ring|]. rewrite H. ring.
Qed.
Lemma tb_hermitian : forall G, hermitian flip b_J b_T G -> hermitian flip b_J b_T (tb_rme mosh G).
Proof.
  intros G Hh T0 x a y b P1 P2 P3 P4. unfold tb_rme. rewrite lsum_swap.
  rewrite (lsum_ext _ (cm_states y) _ (fun q => flip T0 (b_J x) (b_T x) (b_J y) (b_T y) * lsum (cm_states x) (fun p => bracket_of mosh (b_L y) q b * G T0 y q x p * bracket_of mosh (b_L x) p a))%R).
  - rewrite lsum_scale. ring.
  - intros q _. rewrite <- lsum_scale. apply lsum_ext. intros p _. rewrite (Hh T0 x p y q) by assumption. ring.
Qed.
Lemma moshinsky_rel_ok : forall o rs c F cm tb jj, 0 <= o_T0_min o -> o_T0_max o <= 2 -> flip_ok flip -> racah_flip racah1 flip (o_J0 o) ->
  rel_complete rs -> stores_rel rs o c F -> hermitian_rel flip F -> cm_space cm -> Forall (fun x => b_N (fst x) <= rel_Nmax rs) cm ->
  tb_space tb -> covers cm tb -> jj_space jj -> ls_complete tb jj ->
  exists c', moshinsky_rel u6jz racah1 u9j mosh flip o rs c cm tb jj = Ok c'
  /\ stores_jj jj o c' (jj_rme u9j (tb_rme mosh (relcm_rme u6jz racah1 (rel_Jmax rs) (o_J0 o) F))).
Proof.
  intros o rs c F cm tb jj H0 H2 Hf Hr Hrs Hst Hh Hcm HN Htb Hcov Hjj Hls. unfold moshinsky_rel.
  destruct (to_relcm_ok u6jz racah1 flip rs o c F Hrs Hst Hh Hf cm H0 H2 Hcm HN) as (c1 & E1 & S1). rewrite E1. cbn [bind].
  destruct (to_two_body_ok mosh o cm c1 tb _ H0 H2 Hcm Htb Hcov S1) as (c2 & E2 & S2). rewrite E2. cbn [bind].
  apply to_jjjt_ok; try assumption. apply tb_hermitian, relcm_hermitian; assumption.
Qed.
End Chain.
(** the order of the orbitals: that of jj implies that of LS *)
Lemma orbital_order : forall X p, jj_state X p -> ordered_jj p -> ordered4 (orbs p).
Proof.
  intros X [[[N1 l1] j1] [[N2 l2] j2]] (O1 & O2 & _) (H1 & H2 & [Hlt|[-> Hj]]); cbn; [left; exact Hlt|right]. split; [reflexivity|].
  destruct O1 as [_ O1]. destruct O2 as [_ O2]. unfold half_j in *. apply Z.even_spec in O1, O2. destruct O1 as [u Hu]. destruct O2 as [v Hv]. lia.
Qed.
Lemma full_complete : forall Nmax tb jj, tb_full Nmax tb -> jj_space jj -> Forall (fun X => a_N (fst X) <= Nmax /\ a_g (fst X) = a_N (fst X) mod 2 /\ Forall ordered_jj (snd X)) jj -> ls_complete tb jj.
Proof.
  intros Nmax tb jj Hf Hjj Ho X p L S HX Hp HS HC HL Ht. unfold jj_space in Hjj. rewrite Forall_forall in Hjj, Ho. destruct (Hjj X HX) as (HJ & HT & Hst). destruct (Ho X HX) as (HN & Hg & Hord).
  rewrite Forall_forall in Hord. apply Hf; try assumption.
  - unfold lab_ok. cbn. auto.
  - apply (orbital_order (fst X)); [apply Hst; exact Hp|apply Hord; exact Hp].
Qed.
(** the conventions of Rose satisfy the hypotheses *)
Definition hat (J : Z) : R := sqrt (IZR (2 * J + 1)).
Definition flip_rose (T0 J T J' T' : Z) : R := (sign (J - J' + (T - T')) * (hat J' / hat J) * (hat T' / hat T))%R.
Definition racah_rose (sixj : Z -> Z -> Z -> Z -> Z -> Z -> R) (J1 J2 J J1' J2' J' J0 : Z) : R :=
  (sign (J1 + J2 + J' + J0) * hat J1 * hat J' * sixj J1 J J2 J' J1' J0)%R.
Lemma hat_pos : forall J, 0 <= J -> (hat J <> 0)%R.
Proof. intros J H. unfold hat. apply Rgt_not_eq. apply sqrt_lt_R0. apply IZR_lt. lia. Qed.
Lemma sign_even : forall n m, Z.even (n + m) = true -> sign n = sign m.
Proof. intros n m H. unfold sign. rewrite Z.even_add in H. destruct (Z.even n), (Z.even m); try reflexivity; discriminate. Qed.
Lemma sign_add : forall n m, sign (n + m) = (sign n * sign m)%R.
Proof. intros n m. unfold sign. rewrite Z.even_add. destruct (Z.even n), (Z.even m); cbn; ring. Qed.
Lemma sign_sq : forall n, (sign n * sign n = 1)%R.
Proof. intros n. unfold sign. destruct (Z.even n); ring. Qed.
Lemma rose_ok : forall sixj J0, (forall a b c d e f, sixj a b c d e f = sixj e d c b a f) -> flip_ok flip_rose /\ racah_flip (racah_rose sixj) flip_rose J0.
Proof.
  intros sixj J0 Hs. split.
  - intros T0 J T HJ HT. unfold flip_rose. rewrite !Z.sub_diag. cbn [Z.add]. unfold sign. cbn [Z.even]. unfold Rdiv. rewrite !Rinv_r by (apply hat_pos; assumption). ring.
  - intros T0 T T' Jr lc J Jr' J' H1 H2 H3 H4. unfold racah_rose, flip_rose. rewrite (Hs Jr J lc J' Jr' J0).
    assert (E : (sign (Jr + lc + J' + J0) * sign (Jr - Jr' + (T - T')) = sign (J - J' + (T - T')) * sign (Jr' + lc + J + J0))%R).
    { rewrite <- !sign_add. apply sign_even. apply Z.even_spec. exists (Jr + lc + J0 + (T - T') + J). ring. }
    pose proof (hat_pos Jr H1) as N1. pose proof (hat_pos J H2) as N2. unfold Rdiv.
    transitivity ((sign (Jr + lc + J' + J0) * sign (Jr - Jr' + (T - T'))) * (hat Jr * / hat Jr) * hat J' * sixj Jr' J' lc J Jr J0 * hat Jr' * (hat T' * / hat T))%R; [ring|].
    rewrite E, Rinv_r by exact N1.
    transitivity ((sign (J - J' + (T - T')) * sign (Jr' + lc + J + J0)) * (hat J * / hat J) * hat J' * sixj Jr' J' lc J Jr J0 * hat Jr' * (hat T' * / hat T))%R; [rewrite Rinv_r by exact N2; ring|ring].
Qed.
