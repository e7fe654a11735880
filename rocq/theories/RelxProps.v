(** C49, C50: relative-filter and the transformation between oscillator lengths. *)
From Coq Require Import String List ZArith Reals Lra Lia Bool Permutation.
From Verif Require Import Base BaseLemmas RMat OscModel BlockModel JpvModel JpvSpec RelxModel RelxSpec RelxProof.
Import ListNotations.
Open Scope R_scope.

(** C49: refuted.  The line of the input which names the filter is never used. *)
Theorem C49_filter_refuted : exists lines p sp s source r f q x m' i j,
  read_fparams lines = Ok p /\ nth_error lines 1 = Some ["Nrelmax"; "2"]%string /\ f = FNrelmax 2
  /\ rblocks_ok sp s source /\ filter_component p sp s source = Ok r /\ nth_error s q = Some x /\ nth_error r q = Some m'
  /\ (i < rdim sp (fst x))%nat /\ (j < rdim sp (snd x))%nat /\ ~ accepts f (quanta sp (fst x) i) (quanta sp (snd x) j) /\ at_ m' i j <> 0.
Proof. exact filter_not_applied. Qed.
Print Assumptions C49_filter_refuted.
(** What holds: the stored triangle is copied, whatever the parameters. *)
Theorem C49_copy : forall p sp s source, rblocks_ok sp s source ->
  exists r, filter_component p sp s source = Ok r /\ rblocks_ok sp s r
  /\ forall q x m m' i j, nth_error s q = Some x -> nth_error source q = Some m -> nth_error r q = Some m' ->
     (i < rdim sp (fst x))%nat -> (j < rdim sp (snd x))%nat ->
     (kept_triangle x i j -> at_ m' i j = at_ m i j) /\ (~ kept_triangle x i j -> at_ m' i j = 0).
Proof. exact filter_copies. Qed.
Print Assumptions C49_copy.

Definition rx_space : rspace := [RSub 0 1 1 0 0 3; RSub 2 1 1 0 0 2].
Definition rx_sectors (T0 : Z) : lsectors := if (T0 =? 0)%Z then [(0, 0); (0, 1); (1, 1)]%nat else [].
Definition rx_blocks (T0 : Z) : blocks R := if (T0 =? 0)%Z then [Mat 3 3 (fun i j => INR (i + 4 * j)); Mat 3 2 (fun i j => INR (i * j)); Mat 2 2 (fun _ _ => 1)] else [].
Example C49_ex : rblocks_ok rx_space (rx_sectors 0) (rx_blocks 0) /\ kept_triangle (0, 0)%nat 1 2 /\ ~ kept_triangle (0, 0)%nat 2 1 /\ kept_triangle (0, 1)%nat 2 1.
Proof.
  split; [repeat constructor|]. unfold kept_triangle; cbn [fst snd]. split; [intros; lia|]. split; [intros H; specialize (H eq_refl); lia|discriminate].
Qed.

(** C50: equal lengths leave every element unchanged; below the diagonal of a diagonal sector, which is not stored in files, the result
    has the mirror image. *)
Theorem C50_unchanged : forall overlap schedule sp src ssec sblk, (rq_T0_min sp <= rq_T0_max sp)%Z -> rspace_ok src ->
  (forall T0, rsectors_ok src (ssec T0) /\ rblocks_ok src (ssec T0) (sblk T0)) ->
  exists out, transform_relative overlap schedule sp sp src src ssec ssec sblk 1 = Ok out
  /\ length out = length (zrange (rq_T0_min sp) (rq_T0_max sp))
  /\ forall c T0 r, nth_error (zrange (rq_T0_min sp) (rq_T0_max sp)) c = Some T0 -> nth_error out c = Some r ->
     rblocks_ok src (ssec T0) r
     /\ forall q x m m' a b, nth_error (ssec T0) q = Some x -> nth_error (sblk T0) q = Some m -> nth_error r q = Some m' ->
        (a < rdim src (fst x))%nat -> (b < rdim src (snd x))%nat -> at_ m' a b = full_element x m a b.
Proof. exact unchanged. Qed.
Print Assumptions C50_unchanged.
(** Equal lengths with another truncation: elements are cut off or filled with zeros. *)
Theorem C50_equal_lengths : forall overlap schedule sp tp src tgt ssec tsec sblk, params_compatible sp tp -> rspace_ok src -> rspace_ok tgt ->
  (forall T0, rsectors_ok src (ssec T0) /\ rsectors_ok tgt (tsec T0) /\ rblocks_ok src (ssec T0) (sblk T0)) ->
  exists out, transform_relative overlap schedule sp tp src tgt ssec tsec sblk 1 = Ok out
  /\ length out = length (zrange (rq_T0_min tp) (rq_T0_max tp))
  /\ forall c T0 r, nth_error (zrange (rq_T0_min tp) (rq_T0_max tp)) c = Some T0 -> nth_error out c = Some r ->
     rblocks_ok tgt (tsec T0) r
     /\ forall q x m a b, nth_error (tsec T0) q = Some x -> nth_error r q = Some m -> (a < rdim tgt (fst x))%nat -> (b < rdim tgt (snd x))%nat ->
        transformed_element (fun _ i j => if Nat.eqb i j then 1 else 0) src tgt (ssec T0) (sblk T0) x a b (at_ m a b).
Proof. intros overlap schedule. exact (transform_gen overlap schedule 1 _ (xform_matrix_identity overlap schedule)). Qed.
Print Assumptions C50_equal_lengths.
Theorem C50_equal_lengths_element : forall src tgt ssec sblk x a b v, rspace_ok src ->
  rsectors_ok src ssec -> transformed_element (fun _ i j => if Nat.eqb i j then 1 else 0) src tgt ssec sblk x a b v ->
  forall q s m, nth_error ssec q = Some s -> nth_error sblk q = Some m -> same_labels src tgt (fst s) (fst x) -> same_labels src tgt (snd s) (snd x) ->
  v = if (Nat.ltb a (rdim src (fst s)) && Nat.ltb b (rdim src (snd s)))%bool then full_element s m a b else 0.
Proof. exact delta_element. Qed.
Print Assumptions C50_equal_lengths_element.
(** Different lengths: the sums over overlaps, for any schedule of the parallel loop. *)
Theorem C50_overlaps : forall overlap schedule b_ratio O, complete_schedule schedule -> 0 < b_ratio -> b_ratio <> 1 ->
  (forall L i j, overlap L b_ratio i j = Some (O L i j)) ->
  forall sp tp src tgt ssec tsec sblk, params_compatible sp tp -> rspace_ok src -> rspace_ok tgt ->
  (forall T0, rsectors_ok src (ssec T0) /\ rsectors_ok tgt (tsec T0) /\ rblocks_ok src (ssec T0) (sblk T0)) ->
  exists out, transform_relative overlap schedule sp tp src tgt ssec tsec sblk b_ratio = Ok out
  /\ length out = length (zrange (rq_T0_min tp) (rq_T0_max tp))
  /\ forall c T0 r, nth_error (zrange (rq_T0_min tp) (rq_T0_max tp)) c = Some T0 -> nth_error out c = Some r ->
     rblocks_ok tgt (tsec T0) r
     /\ forall q x m a b, nth_error (tsec T0) q = Some x -> nth_error r q = Some m -> (a < rdim tgt (fst x))%nat -> (b < rdim tgt (snd x))%nat ->
        transformed_element O src tgt (ssec T0) (sblk T0) x a b (at_ m a b).
Proof.
  intros overlap schedule b_ratio O Hs Hp Hne HO.
  exact (transform_gen overlap schedule b_ratio O (fun sd td L => xform_matrix_overlaps overlap schedule b_ratio O sd td L Hs Hp Hne HO)).
Qed.
Print Assumptions C50_overlaps.
Theorem C50_schedules : forall overlap s1 s2 sp tp src tgt ssec tsec sblk b out, complete_schedule s1 -> complete_schedule s2 ->
  transform_relative overlap s1 sp tp src tgt ssec tsec sblk b = Ok out ->
  exists out', transform_relative overlap s2 sp tp src tgt ssec tsec sblk b = Ok out' /\ Forall2 (Forall2 meq) out out'.
Proof. exact transform_schedule. Qed.
Print Assumptions C50_schedules.

(** Incompatible parameters and non-positive ratios are refused (the latter as soon as the spaces have a subspace in common). *)
Theorem C50_incompatible : forall overlap schedule sp tp src tgt ssec tsec sblk b,
  ~ (rq_J0 tp = rq_J0 sp /\ rq_g0 tp = rq_g0 sp /\ rq_T0_max tp <= rq_T0_max sp /\ rq_T0_min sp <= rq_T0_min tp /\ rq_Jmax tp <= rq_Jmax sp)%Z ->
  transform_relative overlap schedule sp tp src tgt ssec tsec sblk b = AssertFail.
Proof. exact incompatible_refused. Qed.
Print Assumptions C50_incompatible.
Theorem C50_nonpositive : forall overlap schedule sp tp src tgt ssec tsec sblk b i t, b <= 0 -> same_labels src tgt i t -> rspace_ok src ->
  transform_relative overlap schedule sp tp src tgt ssec tsec sblk b = AssertFail.
Proof. exact nonpositive_refused. Qed.
Print Assumptions C50_nonpositive.

Definition rx_target : rspace := [RSub 0 1 1 0 0 2; RSub 2 1 1 0 0 2; RSub 0 0 0 1 0 2].
Definition rx_tsectors (T0 : Z) : lsectors := [(0, 0); (0, 1); (1, 1); (2, 2)]%nat.
Definition rx_params : rparams := RParams 0 0 0 2 1.
Example C50_ex : rspace_ok rx_space /\ rspace_ok rx_target /\ params_compatible rx_params rx_params
  /\ (forall T0, rsectors_ok rx_space (rx_sectors T0) /\ rsectors_ok rx_target (rx_tsectors T0) /\ rblocks_ok rx_space (rx_sectors T0) (rx_blocks T0))
  /\ same_labels rx_space rx_target 1 1 /\ complete_schedule pairs /\ complete_schedule (fun a b => rev (pairs a b)).
Proof.
  assert (N1 : rspace_ok rx_space) by (vm_compute; repeat (apply NoDup_cons; [cbn; intuition congruence|]); apply NoDup_nil).
  assert (N2 : rspace_ok rx_target) by (vm_compute; repeat (apply NoDup_cons; [cbn; intuition congruence|]); apply NoDup_nil).
  split; [exact N1|]. split; [exact N2|]. split; [unfold params_compatible; cbn; lia|]. split.
  - intros T0. split; [|split].
    + unfold rsectors_ok, rx_sectors. destruct (T0 =? 0)%Z; [|split; [constructor|intros x []]]. split; [repeat constructor; cbn; intuition congruence|].
      intros x [<-|[<-|[<-|[]]]]; cbn; lia.
    + split; [unfold rx_tsectors; repeat constructor; cbn; intuition congruence|]. intros x [<-|[<-|[<-|[<-|[]]]]]; cbn; lia.
    + unfold rx_sectors, rx_blocks. destruct (T0 =? 0)%Z; repeat constructor.
  - split; [eexists; eexists; repeat split|]. split; intros a b; [apply Permutation_refl|apply Permutation_sym, Permutation_rev].
Qed.
