(** C41, C43, C65: isospin and proton-neutron matrix elements. *)
From Coq Require Import List ZArith Reals Bool Lia Lra.
From Verif Require Import Base RMat OscModel BlockModel JpvModel JpvSpec IsoModel IsoSpec IsoProof IsoFinal IsoNeg.
Import ListNotations.
Open Scope Z_scope.

(** C41: after reading pp, nn and pn interactions, branching the isospin components gives them back: for T=1 states that of the
    species; for T=0 states (pn only) that of the pn file. *)
Theorem C41_round_trip : forall sp ss s0 s1 s2 pp nn pn c, rsectors_ok sp ss -> ss = [s0; s1; s2] -> rblocks_ok sp s0 pp -> rblocks_ok sp s0 nn -> rblocks_ok sp s0 pn ->
  comps_ok sp ss c -> zero_comps sp ss c -> exists c', accumulate sp s0 [pp; nn; pn] c = Ok c' /\ comps_ok sp ss c'
  /\ forall q0 q1 q2 b k xb xk x y, nth_error s0 q0 = Some (b, k) -> nth_error s1 q1 = Some (b, k) -> nth_error s2 q2 = Some (b, k) -> nth_error sp b = Some xb -> nth_error sp k = Some xk ->
     r_T xb = 1 -> r_T xk = 1 -> (x < rdim sp b)%nat -> (y < rdim sp k)%nat -> forall sp', (sp' < 3)%nat ->
     (branched (species_Tz sp') (cent c' 0 q0 x y) (cent c' 1 q1 x y) (cent c' 2 q2 x y) = entry_of (nth sp' [pp; nn; pn] []) q0 x y)%R.
Proof. exact round_trip. Qed.
Print Assumptions C41_round_trip.
Theorem C41_round_trip_T0 : forall sp ss s0 s1 s2 pp nn pn c, rsectors_ok sp ss -> ss = [s0; s1; s2] -> rblocks_ok sp s0 pp -> rblocks_ok sp s0 nn -> rblocks_ok sp s0 pn ->
  comps_ok sp ss c -> zero_comps sp ss c -> exists c', accumulate sp s0 [pp; nn; pn] c = Ok c'
  /\ forall q0 b k xb xk x y, nth_error s0 q0 = Some (b, k) -> nth_error sp b = Some xb -> nth_error sp k = Some xk -> r_T xb = 0 -> r_T xk = 0 -> (x < rdim sp b)%nat -> (y < rdim sp k)%nat ->
     cent c' 0 q0 x y = entry_of pn q0 x y.
Proof. exact round_trip_T0. Qed.
Print Assumptions C41_round_trip_T0.
(** the other way: components formed from branched matrix elements are the components *)
Theorem C41_inverse : forall T0 e0 e1 e2, (T0 < 3)%nat ->
  (tz_to_t T0 0 * branched (species_Tz 0) e0 e1 e2 + tz_to_t T0 1 * branched (species_Tz 1) e0 e1 e2 + tz_to_t T0 2 * branched (species_Tz 2) e0 e1 e2 = nth T0 [e0; e1; e2] 0)%R.
Proof.
  intros T0 e0 e1 e2 H. pose proof (tables_inverse' T0 e0 e1 e2 H) as T. cbn [lsum] in T. rewrite <- Rplus_assoc, Rplus_0_r in T. exact T.
Qed.
Print Assumptions C41_inverse.
(** the branching of the code has the coefficients of [branched] *)
Theorem C41_table : forall Tb Tk Tzb Tzk T0, 0 <= Tb <= 1 -> 0 <= Tk <= 1 -> Z.abs Tzb <= Tb -> Z.abs Tzk <= Tk -> 0 <= Tzb - Tzk <= T0 -> Z.abs (Tb - Tk) <= T0 <= Tb + Tk ->
  isospin_coefficient Tb Tk (Tzb - Tzk) Tzk T0 = Ok (cg Tk Tzk T0 (Tzb - Tzk) Tb Tzb).
Proof. exact coefficient_cg. Qed.
Print Assumptions C41_table.
(** 1S0 (T=1) and 3S1 (T=0), one radial state each *)
Definition ss_space : rspace := [RSub 0 0 0 1 0 1; RSub 0 1 1 0 0 1].
Definition one_by_one (v : R) : mat R := Mat 1 1 (fun _ _ => v).
Example C41_ex : rsectors_ok ss_space [[(0, 0); (1, 1)]; [(0, 0)]; [(0, 0)]]%nat
  /\ rblocks_ok ss_space [(0, 0); (1, 1)]%nat [one_by_one 3; one_by_one 0]
  /\ comps_ok ss_space [[(0, 0); (1, 1)]; [(0, 0)]; [(0, 0)]]%nat [([(0, 0); (1, 1)], [one_by_one 0; one_by_one 0]); ([(0, 0)], [one_by_one 0]); ([(0, 0)], [one_by_one 0])]%nat
  /\ zero_comps ss_space [[(0, 0); (1, 1)]; [(0, 0)]; [(0, 0)]]%nat [([(0, 0); (1, 1)], [one_by_one 0; one_by_one 0]); ([(0, 0)], [one_by_one 0]); ([(0, 0)], [one_by_one 0])]%nat.
Proof.
  split.
  { split; [reflexivity|]. split.
    { constructor; [constructor; [intros [E|[]]; discriminate|constructor; [intros []|constructor]]|constructor; [constructor; [intros []|constructor]|constructor; [constructor; [intros []|constructor]|constructor]]]. }
    split.
    - intros s0 b k xb xk s E Hin Hb Hk Tb Tk Hs. injection E as <-. destruct Hin as [E|[E|[]]]; injection E as <- <-.
      + destruct Hs as [<-|[<-|[<-|[]]]]; left; reflexivity.
      + injection Hb as <-. discriminate.
    - intros s b k [<-|[<-|[<-|[]]]] Hin; cbn in Hin; [destruct Hin as [E|[E|[]]]|destruct Hin as [E|[]]|destruct Hin as [E|[]]]; injection E as <- <-; cbn; lia. }
  split; [repeat constructor|]. split.
  { constructor; [split; [reflexivity|repeat constructor]|constructor; [split; [reflexivity|repeat constructor]|constructor; [split; [reflexivity|repeat constructor]|constructor]]]. }
  intros [|[|[|T0]]] s q x y Hs (b & k & Hq & _); cbn in Hs; try (destruct T0; discriminate); injection Hs as <-; unfold cent, entry_of; cbn.
  - destruct q as [|[|q]]; cbn; try reflexivity. destruct q; reflexivity.
  - destruct q as [|q]; cbn; try reflexivity. destruct q; reflexivity.
  - destruct q as [|q]; cbn; try reflexivity. destruct q; reflexivity.
Qed.

(** C43: the Coulomb operator for protons (neutrons) branches to its matrix element between protons (neutrons) and zero for the
    other species and for T=0 states. *)
Theorem C43_coulomb : forall radial t Nmax sp s0 s1 s2 c, t <> OpTotal -> nmax_ok Nmax sp -> (forall s b k, In s [s0; s1; s2] -> In (b, k) s -> (b < length sp)%nat /\ (k < length sp)%nat) ->
  comps_ok sp [s0; s1; s2] c -> zero_comps sp [s0; s1; s2] c ->
  exists c', coulomb radial t Nmax 0 0 0 2 sp c = Ok c' /\ comps_ok sp [s0; s1; s2] c'
  /\ forall q0 q1 q2 b k xk x y, nth_error s0 q0 = Some (b, k) -> nth_error s1 q1 = Some (b, k) -> nth_error s2 q2 = Some (b, k) -> nth_error sp k = Some xk ->
     (x < rdim sp b)%nat -> (y < rdim sp k)%nat -> r_T xk = 1 -> forall Tz, Z.abs Tz <= 1 ->
     branched Tz (cent c' 0 q0 x y) (cent c' 1 q1 x y) (cent c' 2 q2 x y) =
       if Nat.eqb b k && (Tz =? match t with OpP => 1 | _ => -1 end) then (1 / sqrt 2 * radial (Z.of_nat x) (Z.of_nat y) (r_L xk))%R else 0%R.
Proof. exact coulomb_single. Qed.
Print Assumptions C43_coulomb.
Theorem C43_coulomb_T0 : forall radial t Nmax sp s0 s1 s2 c, t <> OpTotal -> nmax_ok Nmax sp -> (forall s b k, In s [s0; s1; s2] -> In (b, k) s -> (b < length sp)%nat /\ (k < length sp)%nat) ->
  comps_ok sp [s0; s1; s2] c -> zero_comps sp [s0; s1; s2] c ->
  exists c', coulomb radial t Nmax 0 0 0 2 sp c = Ok c'
  /\ forall T0 s q b k xk x y, nth_error [s0; s1; s2] T0 = Some s -> nth_error s q = Some (b, k) -> nth_error sp k = Some xk -> (x < rdim sp b)%nat -> (y < rdim sp k)%nat -> r_T xk <> 1 -> cent c' T0 q x y = 0%R.
Proof. exact coulomb_singlet. Qed.
Print Assumptions C43_coulomb_T0.
Theorem C43_total : forall radial Nmax sp s0 s1 s2 c, nmax_ok Nmax sp -> (forall s b k, In s [s0; s1; s2] -> In (b, k) s -> (b < length sp)%nat /\ (k < length sp)%nat) ->
  comps_ok sp [s0; s1; s2] c -> zero_comps sp [s0; s1; s2] c ->
  exists c', coulomb radial OpTotal Nmax 0 0 0 0 sp c = Ok c'
  /\ forall q b k xk x y, nth_error s0 q = Some (b, k) -> nth_error sp k = Some xk -> (x < rdim sp b)%nat -> (y < rdim sp k)%nat ->
     cent c' 0 q x y = if Nat.eqb b k then (1 / sqrt 2 * radial (Z.of_nat x) (Z.of_nat y) (r_L xk))%R else 0%R.
Proof. exact coulomb_total. Qed.
Print Assumptions C43_total.
(** the space of C41_ex: its sectors and zero operator are as needed *)
Theorem C43_labels : forall radial t Nmax J0 g0 T0_min T0_max sp zero, J0 <> 0 \/ g0 <> 0 -> coulomb radial t Nmax J0 g0 T0_min T0_max sp zero = AssertFail.
Proof. exact coulomb_labels. Qed.
Print Assumptions C43_labels.
Example C43_ex : nmax_ok (fun _ => 0) ss_space /\ (forall s b k, In s [[(0, 0); (1, 1)]; [(0, 0)]; [(0, 0)]]%nat -> In (b, k) s -> (b < length ss_space)%nat /\ (k < length ss_space)%nat).
Proof.
  split.
  - intros [|[|k]] x H; cbn in H; try (destruct k; discriminate); injection H as <-; split; (reflexivity || (cbn; lia)).
  - exact (proj2 (proj2 (proj2 (proj1 C41_ex)))).
Qed.

(** C65: the proton-neutron matrix elements formed from an operator of isospin components are those of the Wigner-Eckart theorem
    in isospin, with phases for the order of the orbitals and of bra and ket; below the diagonal of a diagonal sector there is zero. *)
Theorem C65_branching : forall f T0_min T0_max sp c F bra ket diagonal, antisymmetric F -> hermitian f sp F -> within sp F ->
  stores T0_min T0_max (q_J bra) (q_g bra) (q_J ket) (q_g ket) sp c F -> states_ok sp bra -> states_ok sp ket ->
  0 <= q_Tz bra - q_Tz ket -> 0 <= T0_min -> T0_max <= 2 ->
  exists m, branch f T0_min T0_max sp c bra ket diagonal = Ok m /\ rows m = length (q_states bra) /\ cols m = length (q_states ket)
  /\ forall i j b k, nth_error (q_states bra) i = Some b -> nth_error (q_states ket) j = Some k ->
     at_ m i j = if diagonal && negb (Nat.leb i j) then 0%R else wigner_eckart T0_min T0_max F bra ket b k.
Proof. exact branch_value. Qed.
Print Assumptions C65_branching.
Theorem C65_lowering : forall f T0_min T0_max sp c bra ket diagonal, q_Tz bra - q_Tz ket < 0 -> branch f T0_min T0_max sp c bra ket diagonal = AssertFail.
Proof. intros f T0_min T0_max sp c bra ket diagonal H. unfold branch. replace (0 <=? q_Tz bra - q_Tz ket) with false by (symmetry; apply Z.leb_gt; exact H). reflexivity. Qed.
Print Assumptions C65_lowering.
(** two nucleons in 0s1/2: T=1, J=0 and T=0, J=1; the operator 1; the proton-neutron state of J=1 *)
Definition s_half : orb := (0, 1).
Definition s_space : tspace := [TSub 0 1 0 [(s_half, s_half)]; TSub 1 0 0 [(s_half, s_half)]].
Definition s_unit : rme := fun T0 l a b l' c d =>
  if (T0 =? 0) && orb_eqb a s_half && orb_eqb b s_half && orb_eqb c s_half && orb_eqb d s_half then
    match l, l' with (0, 1, 0), (0, 1, 0) => 1%R | (1, 0, 0), (1, 0, 0) => 1%R | _, _ => 0%R end else 0%R.
Definition s_pn : psub := PSub 1 0 0 [PS 0 s_half 0 s_half].
Definition s_comps : components := [([(0, 0); (1, 1)]%nat, [one_by_one 1; one_by_one 1])].
Lemma s_unit_nonzero : forall T0 l a b l' c d, s_unit T0 l a b l' c d <> 0%R -> T0 = 0 /\ a = s_half /\ b = s_half /\ c = s_half /\ d = s_half /\ ((l = (0, 1, 0) /\ l' = (0, 1, 0)) \/ (l = (1, 0, 0) /\ l' = (1, 0, 0))).
Proof.
  intros T0 l a b l' c d H. unfold s_unit in H. destruct ((T0 =? 0) && orb_eqb a s_half && orb_eqb b s_half && orb_eqb c s_half && orb_eqb d s_half) eqn:E; [|congruence].
  rewrite !andb_true_iff, !orb_eqb_ok, Z.eqb_eq in E. destruct E as [[[[-> ->] ->] ->] ->]. do 5 (split; [reflexivity|]).
  destruct l as [[[|[| |]|] [|[| |]|]] [|?|?]]; try congruence; destruct l' as [[[|[| |]|] [|[| |]|]] [|?|?]]; try congruence; auto.
Qed.
Example C65_ex : antisymmetric s_unit /\ hermitian (fun _ _ _ => 1%R) s_space s_unit /\ within s_space s_unit /\ stores 0 0 1 0 1 0 s_space s_comps s_unit /\ states_ok s_space s_pn
  /\ s_unit 0 (1, 0, 0) s_half s_half (1, 0, 0) s_half s_half = 1%R.
Proof.
  assert (Z0 : forall T0 l a b l' c d T0' k a' b' k' c' d', (s_unit T0 l a b l' c d <> 0 -> s_unit T0 l a b l' c d = s_unit T0' k a' b' k' c' d')%R -> (s_unit T0' k a' b' k' c' d' <> 0 -> s_unit T0 l a b l' c d = s_unit T0' k a' b' k' c' d')%R ->
     s_unit T0 l a b l' c d = s_unit T0' k a' b' k' c' d').
  { intros. destruct (Req_dec (s_unit T0 l a b l' c d) 0) as [E|E]; [|auto]. destruct (Req_dec (s_unit T0' k a' b' k' c' d') 0) as [E'|E']; [congruence|auto]. }
  split.
  { split; intros T0 l a b l' c d.
    - destruct (Req_dec (s_unit T0 l a b l' c d) 0) as [E|E].
      + rewrite E, Rmult_0_r. destruct (Req_dec (s_unit T0 l b a l' c d) 0) as [E'|E']; [exact E'|]. apply s_unit_nonzero in E'. destruct E' as (-> & -> & -> & -> & -> & _). exact E.
      + apply s_unit_nonzero in E. destruct E as (-> & -> & -> & -> & -> & [[-> ->]|[-> ->]]); cbn; ring.
    - destruct (Req_dec (s_unit T0 l a b l' c d) 0) as [E|E].
      + rewrite E, Rmult_0_r. destruct (Req_dec (s_unit T0 l a b l' d c) 0) as [E'|E']; [exact E'|]. apply s_unit_nonzero in E'. destruct E' as (-> & -> & -> & -> & -> & _). exact E.
      + apply s_unit_nonzero in E. destruct E as (-> & -> & -> & -> & -> & [[-> ->]|[-> ->]]); cbn; ring. }
  split.
  { split.
    - intros T0 i k x y a b c d Hi Hk Hlt. rewrite Rmult_1_l. apply Z0; intros H; apply s_unit_nonzero in H; destruct H as (-> & -> & -> & -> & -> & [[-> ->]|[-> ->]]); reflexivity.
    - intros T0 l a b c d. apply Z0; intros H; apply s_unit_nonzero in H; destruct H as (-> & -> & -> & -> & -> & [[-> _]|[-> _]]); reflexivity. }
  split.
  { intros T0 l a b l' c d H. apply s_unit_nonzero in H. destruct H as (_ & _ & _ & _ & _ & [[-> ->]|[-> ->]]); cbn; auto. }
  split.
  { intros T0 i k x y HT Hik Hi Hk HJ Htri. assert (T0 = 0) by lia. subst T0. exists [(0, 0); (1, 1)]%nat, [one_by_one 1; one_by_one 1].
    destruct i as [|[|i]]; cbn in Hi; [| |destruct i; discriminate]; injection Hi as <-; (destruct k as [|[|k]]; cbn in Hk; [| |destruct k; discriminate]; injection Hk as <-); cbn in HJ; try lia.
    exists 1%nat, (one_by_one 1). split; [reflexivity|]. split; [constructor; [intros [E|[]]; discriminate|constructor; [intros []|constructor]]|]. do 4 (split; [reflexivity|]).
    intros [|u] [|v] a b Ha Hb _; cbn in Ha, Hb; try (destruct u; discriminate); try (destruct v; discriminate). injection Ha as <-. injection Hb as <-. reflexivity. }
  split; [|reflexivity].
  split; [cbn; lia|]. split; [cbn; lia|]. intros s [<-|[]]. cbn. split; [lia|]. split; [lia|]. split; [auto|]. intros x [<-|[<-|[]]] HJ _ _; cbn in *; [lia|auto].
Qed.

(** C43.  A negative isospin component is used as index, which is undefined. *)
Theorem C43_negative : forall radial t Nmax T0_min T0_max sp zero, T0_min < 0 -> T0_min <= T0_max -> coulomb radial t Nmax 0 0 T0_min T0_max sp zero = UB.
Proof. exact coulomb_negative. Qed.
Print Assumptions C43_negative.
