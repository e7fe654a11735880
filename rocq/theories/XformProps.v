(** C20, C21, C22. *)
From Coq Require Import List ZArith Reals Bool.
From Verif Require Import Base H2Model MapModel MapSpec RMat XformModel XformSpec XformFinal ExXform SepModel SepSpec XformStates XformMore.
Import ListNotations.

(** C20: overlaps of a basis with itself leave every matrix unchanged. *)
Theorem C20_identity : forall os ov x m, orbitals_ok os -> identity_overlaps os ov ->
  states_ok os (s_bra x) -> states_ok os (s_ket x) -> sector_ok x -> dims m x ->
  exists r, transformed ov os os x x m = Ok r /\ same_matrix r m.
Proof. exact identity_ok. Qed.
Print Assumptions C20_identity.
Example C20_ex : orbitals_ok xos /\ identity_overlaps xos xid /\ complete xos xpp /\ complete xos xpn
  /\ sector_ok xsec /\ sector_ok xsec' /\ dims one3 xsec.
Proof. exact (conj x_orbitals (conj x_id (conj x_pp (conj x_pn (conj x_sec (conj x_sec' (conj eq_refl eq_refl))))))). Qed.

(** C21: two successive transformations equal the transformation with the composed overlaps when the
    intermediate two-body subspaces are complete. *)
Theorem C21_composition : forall ov12 ov23 ov13 o1 o2 o3 x1 x2 x3 m,
  orbitals_ok o2 -> composed o2 ov12 ov23 ov13 ->
  states_ok o1 (s_bra x1) -> states_ok o1 (s_ket x1) -> complete o2 (s_bra x2) -> complete o2 (s_ket x2) ->
  states_ok o3 (s_bra x3) -> states_ok o3 (s_ket x3) ->
  sector_ok x1 -> sector_ok x2 -> sector_ok x3 -> same_sector x1 x2 -> same_sector x2 x3 -> dims m x1 ->
  exists m2 m3 m3', transformed ov12 o1 o2 x1 x2 m = Ok m2 /\ transformed ov23 o2 o3 x2 x3 m2 = Ok m3
  /\ transformed ov13 o1 o3 x1 x3 m = Ok m3' /\ dims m3 x3 /\ same_matrix m3 m3'.
Proof. exact compose_ok. Qed.
Print Assumptions C21_composition.
Example C21_ex : composed xos xall xall xcomp /\ (forall sp, xcomp sp s0 s1 = 2%R)
  /\ complete xos xpp /\ complete xos xpn /\ exists r, transformed xall xos xos xsec xsec one3 = Ok r /\ at_ r 0 0 = 4%R.
Proof. exact (conj x_comp (conj x_comp_value (conj x_pp (conj x_pn x_value)))). Qed.

(** C22: hermiticity and linearity. *)
Theorem C22_symmetric : forall ov os ot x y m r, s_bi x = s_ki x -> symmetric m ->
  transformed ov os ot x y m = Ok r -> symmetric r.
Proof. exact symmetric_ok. Qed.
Print Assumptions C22_symmetric.
Theorem C22_linear : forall ov os ot x y m1 m2 r1 r2 c, rows m1 = rows m2 -> cols m1 = cols m2 ->
  transformed ov os ot x y m1 = Ok r1 -> transformed ov os ot x y m2 = Ok r2 ->
  exists ra rs, transformed ov os ot x y (madd m1 m2) = Ok ra /\ same_matrix ra (madd r1 r2)
  /\ transformed ov os ot x y (mscale c m1) = Ok rs /\ same_matrix rs (mscale c r1).
Proof. exact linear_ok. Qed.
Print Assumptions C22_linear.
(** every well-formed input is transformed *)
Theorem C22_total : forall ov os ot x y m,
  states_ok os (s_bra x) -> states_ok os (s_ket x) -> states_ok ot (s_bra y) -> states_ok ot (s_ket y) ->
  sector_ok x -> sector_ok y -> same_sector x y -> dims m x ->
  exists r, transformed ov os ot x y m = Ok r /\ dims r y.
Proof. exact transformed_total. Qed.
Print Assumptions C22_total.
Example C22_ex : exists r, transformed xall xos xos xsec xsec one3 = Ok r /\ at_ r 0 0 = 4%R.
Proof. exact x_value. Qed.

(** C22: the elements, by the overlaps of the states of two orbitals. *)
Theorem C22_elements : forall ov u os ot x y m, overlaps_by ov u -> orbitals_half os -> orbitals_half ot ->
  states_ok os (s_bra x) -> states_ok os (s_ket x) -> states_ok ot (s_bra y) -> states_ok ot (s_ket y) ->
  sector_ok x -> sector_ok y -> same_sector x y -> dims m x ->
  exists r, transformed ov os ot x y m = Ok r /\ dims r y
  /\ forall B K i j ab cd, (forall k, (k < rows m)%nat -> orbs_of os (s_bra x) k (B k)) -> (forall l, (l < cols m)%nat -> orbs_of os (s_ket x) l (K l)) ->
     orbs_of ot (s_bra y) i ab -> orbs_of ot (s_ket y) j cd ->
     at_ r i j = rsum (rows m) (fun k => rsum (cols m) (fun l => (state_overlap u (B k) ab (ss_J (s_bra x)) * at_ m k l * state_overlap u (K l) cd (ss_J (s_ket x)))%R)).
Proof. exact elements_ok. Qed.
Print Assumptions C22_elements.

(** the overlap of the states of two 0s1/2 orbitals and of a 0s1/2 and a 1s1/2 orbital, J = 0, for equal overlaps *)
Example C22_elements_ex : let u x y := if same_lj (o_lab x) (o_lab y) then 1%R else 0%R in
  (state_overlap u (Orb SP 0 s0, Orb SP 0 s0) (Orb SP 0 s0, Orb SP 1 s1) 0 * sqrt 2 = 2)%R.
Proof. exact overlap_case. Qed.
