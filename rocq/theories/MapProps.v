(** Properties C16-C19: remapping of two-body matrices (libraries/tbme/tbme_mapping.cpp).
    Vocabulary: MapSpec.v; model: MapModel.v. *)
From Coq Require Import List ZArith Lia Bool Permutation.
From Verif Require Import Base H2Model MapModel MapSpec MapFinal MapProof2.
Import ListNotations.
Open Scope nat_scope.

(** Example spaces: target orbitals in another order and one source orbital missing. *)
Definition exA : ospace := fun _ => [OL 0 0 1; OL 0 1 1; OL 0 1 3]%Z.
Definition exB : ospace := fun _ => [OL 0 1 3; OL 0 2 5; OL 0 0 1]%Z.
Definition exAsp : list subspace := [Sub PP 1 1 [(0, 1); (0, 2)]; Sub PN 1 1 [(0, 1); (0, 2); (2, 0)]; Sub PP 2 0 [(2, 2)]].
Definition exBsp : list subspace := [Sub PN 1 1 [(2, 0); (0, 2)]; Sub PP 1 1 [(0, 2)]].
Ltac nodup := repeat apply NoDup_cons; try apply NoDup_nil;
  let H := fresh in intros H; cbn in H; repeat (destruct H as [H|H]; [discriminate H|]); exact H.
Ltac space_ok_tac :=
  split;
  [ intros []; cbn; nodup
  | intros []; cbn; repeat constructor; cbn; discriminate
  | unfold exAsp, exBsp; cbn [map sub_labels ss_species ss_J ss_g]; nodup
  | unfold exAsp, exBsp; repeat (apply Forall_cons || apply Forall_nil); (split; [cbn [ss_states]; nodup|discriminate])
  | unfold exAsp, exBsp; repeat constructor; cbn; unfold like_species; try lia; intros; try lia; congruence ].
Lemma exA_ok : space_ok exA exAsp.
Proof. space_ok_tac. Qed.
Lemma exB_ok : space_ok exB exBsp.
Proof. space_ok_tac. Qed.
Definition exM : mat Z := Mat 2 3 (fun i j => 10 * Z.of_nat i + Z.of_nat j + 1)%Z.
Definition exS : sector := Sec (nth 0 exAsp (Sub PP 0 0 [])) (nth 1 exAsp (Sub PP 0 0 [])) 0 1.
Definition exT : sector := Sec (nth 1 exBsp (Sub PP 0 0 [])) (nth 0 exBsp (Sub PP 0 0 [])) 1 0.

(** ** C16 *)
Theorem C16_remap_preserves_operator : forall src tgt ssp tsp, space_ok src ssp -> space_ok tgt tsp ->
  exists mp, make_mapping src ssp tgt tsp = Ok mp
  /\ forall D (d0 : D) dscale ss ts m, sector_of ssp ss -> sector_of tsp ts -> same_sector ss ts -> dims m ss ->
  exists r, remap D d0 dscale ss ts mp m = Ok r /\ dims r ts
  /\ (forall sb sk tb tk pb pk, same_state src (s_bra ss) sb tgt (s_bra ts) tb pb ->
        same_state src (s_ket ss) sk tgt (s_ket ts) tk pk -> at_ r tb tk = dscale (pb * pk)%Z (at_ m sb sk))
  /\ (forall tb tk, (forall sb p, ~ same_state src (s_bra ss) sb tgt (s_bra ts) tb p)
        \/ (forall sk p, ~ same_state src (s_ket ss) sk tgt (s_ket ts) tk p) -> at_ r tb tk = d0).
Proof. exact remap_spec. Qed.
Print Assumptions C16_remap_preserves_operator.

(** outside the stated precondition (counterpart of the subspace exists) the code is undefined *)
Theorem C16_remap_without_counterpart : forall src tgt ssp tsp, space_ok src ssp -> space_ok tgt tsp ->
  exists mp, make_mapping src ssp tgt tsp = Ok mp
  /\ forall D (d0 : D) dscale ss ts m, sector_of ssp ss -> dims m ss -> ~ sub_in (s_bra ss) tsp ->
     remap D d0 dscale ss ts mp m = UB.
Proof. exact remap_missing. Qed.
Print Assumptions C16_remap_without_counterpart.

(** the pair (0s1/2 0p3/2) is exchanged in the target: phase -(-1)^(1-1/2-3/2) = 1 for J=1; and
    for J=2 (second computation) phase -1 *)
Example C16_example : space_ok exA exAsp /\ space_ok exB exBsp /\ sector_of exAsp exS /\ sector_of exBsp exT
  /\ same_sector exS exT /\ dims exM exS
  /\ same_state exA (s_bra exS) 1 exB (s_bra exT) 0 (exchange_phase 1 (OL 0 0 1) (OL 0 1 3)).
Proof.
  split; [exact exA_ok|]. split; [exact exB_ok|]. split; [split; reflexivity|]. split; [split; reflexivity|].
  split; [split; reflexivity|]. split; [split; reflexivity|]. apply same_exchanged.
  - exists 0, 2. auto.
  - exists 0, 2. auto.
  - discriminate.
  - discriminate.
Qed.
Definition run_remap (src : ospace) (ssp : list subspace) (tgt : ospace) (tsp : list subspace) (ss ts : sector) (m : mat Z) : list Z :=
  match make_mapping src ssp tgt tsp with
  | Ok mp => match remap Z 0%Z Z.mul ss ts mp m with
             | Ok r => map (fun p => at_ r (fst p) (snd p)) (pairs (rows r) (cols r))
             | _ => []
             end
  | _ => []
  end.
Example C16_run : run_remap exA exAsp exB exBsp exS exT exM = [12; 13]%Z
  /\ (let sp x := [Sub PP 2 1 x] in let sec x := Sec (Sub PP 2 1 x) (Sub PP 2 1 x) 0 0 in
      run_remap exA (sp [(0, 1); (0, 2)]) exB (sp [(0, 1); (0, 2)]) (sec [(0, 1); (0, 2)]) (sec [(0, 1); (0, 2)])
        (Mat 2 2 (fun i j => 10 * Z.of_nat i + Z.of_nat j + 1)%Z) = [0; 0; 0; 12]%Z)
  /\ exchange_phase 2 (OL 0 0 1) (OL 0 1 3) = (-1)%Z.
Proof. vm_compute. auto. Qed.

(** ** C17 *)
Theorem C17_schedule_independent : forall src tgt ssp tsp, space_ok src ssp -> space_ok tgt tsp ->
  exists mp, make_mapping src ssp tgt tsp = Ok mp
  /\ forall D (d0 : D) dscale ss ts m order, sector_of ssp ss -> sector_of tsp ts -> same_sector ss ts -> dims m ss ->
     Permutation order (pairs (length (ss_states (s_bra ss))) (length (ss_states (s_ket ss)))) ->
     exists r r', remap D d0 dscale ss ts mp m = Ok r /\ remap_in_order D d0 dscale order ss ts mp m = Ok r'
       /\ same_matrix r r'.
Proof. exact remap_schedule. Qed.
Print Assumptions C17_schedule_independent.

(** no two iterations write the same element, no write is out of bounds *)
Theorem C17_writes_disjoint : forall src tgt ssp tsp, space_ok src ssp -> space_ok tgt tsp ->
  exists mp, make_mapping src ssp tgt tsp = Ok mp
  /\ forall x s t i k ph, nth_error ssp x = Some s -> In t tsp -> sub_labels s = sub_labels t ->
     i < length (ss_states s) -> entry mp x i = Ok (Some k, ph) ->
     k < length (ss_states t)
     /\ forall i' ph', i' < length (ss_states s) -> entry mp x i' = Ok (Some k, ph') -> i' = i.
Proof. exact mapping_disjoint. Qed.
Print Assumptions C17_writes_disjoint.

Example C17_example : match make_mapping exA exAsp exB exBsp with
  | Ok mp => match remap_in_order Z 0%Z Z.mul [(1, 2); (0, 1); (1, 0); (0, 0); (1, 1); (0, 2)] exS exT mp exM with
             | Ok r => map (fun p => at_ r (fst p) (snd p)) (pairs (rows r) (cols r))
             | _ => []
             end
  | _ => []
  end = [12; 13]%Z
  /\ Permutation [(1, 2); (0, 1); (1, 0); (0, 0); (1, 1); (0, 2)] (pairs 2 3).
Proof.
  split; [vm_compute; reflexivity|].
  apply NoDup_Permutation; [nodup|unfold pairs; cbn; nodup|]. intros [i j]. unfold pairs. cbn. tauto.
Qed.

(** ** C18 *)
Theorem C18_coverage_flags : forall src tgt ssp tsp, space_ok src ssp -> space_ok tgt tsp ->
  exists mp, make_mapping src ssp tgt tsp = Ok mp
  /\ (m_dsub mp = true <-> forall s, In s ssp -> sub_in s tsp)
  /\ (m_dsta mp = true <-> forall s i, In s ssp -> i < length (ss_states s) -> state_in src s i tgt tsp)
  /\ (m_rsub mp = true <-> forall t, In t tsp -> sub_in t ssp)
  /\ (m_rsta mp = true <-> forall t j, In t tsp -> j < length (ss_states t) ->
        exists s i p, In s ssp /\ sub_labels s = sub_labels t /\ same_state src s i tgt t j p).
Proof. exact mapping_flags. Qed.
Print Assumptions C18_coverage_flags.

(** here all target states are covered, but not all source states; and conversely *)
Definition flags (m : outcome mapping) : list bool :=
  match m with Ok m => [m_dsub m; m_dsta m; m_rsub m; m_rsta m] | _ => [] end.
Example C18_example : space_ok exA exAsp /\ space_ok exB exBsp
  /\ flags (make_mapping exA exAsp exB exBsp) = [false; false; true; true]
  /\ flags (make_mapping exB exBsp exA exAsp) = [true; true; false; false].
Proof. split; [exact exA_ok|]. split; [exact exB_ok|]. vm_compute. auto. Qed.

(** ** C19 *)
Theorem C19_identity : forall os sp, space_ok os sp ->
  exists mp, make_mapping os sp os sp = Ok mp
  /\ forall D (d0 : D) dscale, (forall x, dscale 1%Z x = x) -> forall x m, sector_of sp x -> dims m x ->
     exists r, remap D d0 dscale x x mp m = Ok r /\ same_matrix r m.
Proof. exact remap_identity. Qed.
Print Assumptions C19_identity.

Theorem C19_forth_and_back : forall A B asp bsp, space_ok A asp -> space_ok B bsp ->
  exists ab ba, make_mapping A asp B bsp = Ok ab /\ make_mapping B bsp A asp = Ok ba
  /\ forall D (d0 : D) dscale, (forall x, dscale 1%Z x = x) -> (forall x, dscale (-1)%Z (dscale (-1)%Z x) = x) ->
     forall x y m, sector_of asp x -> sector_of bsp y -> same_sector x y -> dims m x ->
     exists r1 r, remap D d0 dscale x y ab m = Ok r1 /\ remap D d0 dscale y x ba r1 = Ok r /\ dims r x
     /\ (forall i j, (exists i' p, same_state A (s_bra x) i B (s_bra y) i' p) -> (exists j' p, same_state A (s_ket x) j B (s_ket y) j' p) ->
           at_ r i j = at_ m i j)
     /\ (forall i j, (forall i' p, ~ same_state A (s_bra x) i B (s_bra y) i' p) \/ (forall j' p, ~ same_state A (s_ket x) j B (s_ket y) j' p) ->
           at_ r i j = d0).
Proof. exact remap_back. Qed.
Print Assumptions C19_forth_and_back.

Example C19_example : (forall x, Z.mul 1 x = x) /\ (forall x, (-1 * (-1 * x) = x)%Z)
  /\ run_remap exA exAsp exA exAsp exS exS exM = [1; 2; 3; 11; 12; 13]%Z
  /\ run_remap exB exBsp exA exAsp exT exS (Mat 1 2 (fun i j => nth j [12; 13]%Z 0%Z)) = [0; 0; 0; 0; 12; 13]%Z.
Proof. split; [exact Z.mul_1_l|]. split; [intros [|p|p]; reflexivity|]. vm_compute. auto. Qed.
