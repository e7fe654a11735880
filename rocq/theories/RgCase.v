(** Concrete cases for C120 - C125, and claims that do not hold. *)
From Coq Require Import String List ZArith Reals Bool Lia Lra.
From Verif Require Import Base BaseLemmas RMat H2Model MapModel OscModel OscSpec BlockModel BlockSpec BlockProof BlockFinal ObioModel ObioProof MixModel ObmModel ObmSpec ObmProof
  ObmFinal ObmFin2 ObmFin6 NatModel NatProof NatFinal RgModel RgSpec RgProof RgBuild RgMore.
Import ListNotations.
Open Scope R_scope.

Ltac nodup := repeat (apply NoDup_cons; [cbn [In]; intuition discriminate|]); apply NoDup_nil.
(** words *)
Definition tx (s : string) : word := Word s None None.
Definition iw (s : string) (z : Z) : word := Word s (Some z) (Some (IZR z)).
(** two proton s1/2 orbitals and a p1/2 orbital *)
Definition s_lab : llabel := LL SP 0 1.
Definition p_lab : llabel := LL SP 1 1.
Definition three_orbitals : list (oinfo R) := [OI s_lab 0%Z 0; OI s_lab 1%Z 2; OI p_lab 0%Z 1].
Local Open Scope string_scope.
Definition one_file : files := put (fun _ => None) "orbitals.dat" (FOrbitals three_orbitals).
Definition good_control : list (list word) :=
  [[tx "define-operator-target"; tx "kinematic"; tx "r.r"; tx "obme-rr.dat"]; [];
   [tx "set-ket-basis"; tx "laguerre"; tx "orbitals.dat"];
   [tx "define-operator-target"; tx "solid-harmonic"; tx "ik"; iw "3" 3; tx "obme-Y3.dat"; tx "ignored"];
   [tx "define-radial-target"; tx "r"; iw "2" 2; iw "0" 0; iw "0" 0; iw "0" 0; tx "radial-r2.dat"];
   [tx "define-xform-target"; iw "1" 1; tx "oscillator"; tx "orbitals.dat"; tx "xform.dat"];
   [tx "define-operator-target"; tx "am"; tx "l2"; tx "l2.dat"]; [tx "define-operator-target"; tx "isospin"; tx "t-"; tx "tminus.dat"]].
Definition good_targets : list rtarget :=
  [RTarget "orbitals.dat" "orbitals.dat" "obme-rr.dat" BOscillator BOscillator 1 (Some (MKinematic TR, 2, (0, 0, 0))%Z);
   RTarget "orbitals.dat" "orbitals.dat" "obme-Y3.dat" BLaguerre BLaguerre 1 (Some (MSolid TK, 3, (3, 1, 0))%Z);
   RTarget "orbitals.dat" "orbitals.dat" "radial-r2.dat" BLaguerre BLaguerre 1 (Some (MRadial TR, 2, (0, 0, 0))%Z);
   RTarget "orbitals.dat" "orbitals.dat" "xform.dat" BOscillator BLaguerre 1 (Some (MXform, 0, (0, 0, 0))%Z);
   RTarget "orbitals.dat" "orbitals.dat" "l2.dat" BLaguerre BLaguerre 1 (Some (MAm AOrbital, 2, (0, 0, 0))%Z);
   RTarget "orbitals.dat" "orbitals.dat" "tminus.dat" BLaguerre BLaguerre 1 (Some (MIsospin, 0, (0, 0, -1))%Z)].
Lemma control_case : control one_file rstate0 good_control good_targets.
Proof. apply lines_control. reflexivity. Qed.
Lemma exit_case : read_lines one_file rstate0 [[tx "set-ket-basis"; tx "oscillator"; tx "missing.dat"]] = Exit
  /\ read_lines one_file rstate0 [[tx "define-operator-source"; tx "am"; tx "l"; tx "out.dat"]] = Exit
  /\ read_lines one_file rstate0 [[tx "define-operator-target"; tx "am"; tx "t"; tx "out.dat"]] = Exit
  /\ read_lines one_file rstate0 [[tx "define-radial-target"; tx "r"; iw "1" 1; tx "out.dat"]] = Exit.
Proof. repeat split; reflexivity. Qed.
Local Close Scope string_scope.

Lemma three_proper : proper three_orbitals.
Proof. repeat constructor; cbn; lia. Qed.
Lemma three_once : once three_orbitals.
Proof. unfold once. cbn [map three_orbitals oi_lab oi_n]. repeat (apply NoDup_cons; [cbn [In]; intuition discriminate|]). apply NoDup_nil. Qed.

Section Programs.
Variable spline : spline_me.
Variable crme : Z -> Z -> Z -> Z -> Z -> R.
Variable am_rme : am_type -> Z -> Z -> Z -> Z -> R.
Variable inv_sqrt_4pi : R.
Notation build := (build spline crme am_rme inv_sqrt_4pi).
Notation radial_gen := (radial_gen spline crme am_rme inv_sqrt_4pi).

(** a misspelt mode is not noticed, and then its fields are used uninitialised *)
Lemma unknown_mode_refuted : exists fs lines ts, control fs rstate0 lines ts /\ radial_gen fs lines = UB.
Proof.
  exists one_file, [[tx "define-operator-target"; tx "kinematics"; tx "r"; tx "out.dat"]]%string. eexists. split; [apply lines_control; reflexivity|].
  unfold RgModel.radial_gen. cbn [read_lines]. set (x := read_line _ _ _). change x with (Ok (rstate0, [RTarget "orbitals.dat" "orbitals.dat" "out.dat" BOscillator BOscillator 1 None])%string). clear x.
  cbn [bind app RgModel.build_all]. rewrite (unknown_mode _ _ _ _ one_file _ _ _ three_orbitals) by reflexivity. reflexivity.
Qed.
(** ... and a negative order is accepted *)
Lemma negative_refuted : exists fs lines fs' f, radial_gen fs lines = Ok fs' /\ fs' "out.dat"%string = Some (FElements f) /\ rf_q f = (-1, -1, 0)%Z /\ rf_sectors f = [].
Proof.
  exists one_file, [[tx "define-operator-target"; tx "solid-harmonic"; tx "r"; iw "-1" (-1); tx "out.dat"]]%string. do 2 eexists. split; [|split; [|split]].
  - unfold RgModel.radial_gen. cbn [read_lines]. set (x := read_line _ _ _).
    change x with (Ok (rstate0, [RTarget "orbitals.dat" "orbitals.dat" "out.dat" BOscillator BOscillator 1 (Some (MSolid TR, (-1)%Z, ((-1)%Z, (-1)%Z, 0%Z)))])%string). clear x.
    cbn [bind app RgModel.build_all]. rewrite (negative_order _ _ _ _ one_file _ _ _ _ _ _ three_orbitals); [reflexivity|reflexivity| |lia].
    repeat constructor; cbn; lia.
  - apply put_same.
  - reflexivity.
  - reflexivity.
Qed.
(** an output file that is the orbital file of a later target ends the program *)
Lemma overwrite_refuted : exists fs lines ts, control fs rstate0 lines ts
  /\ (forall t, In t ts -> exists f, build fs t = Ok (put fs (t_out t) (FElements f))) /\ radial_gen fs lines = Exit.
Proof.
  set (line := [tx "define-operator-target"; tx "am"; tx "j2"; tx "orbitals.dat"]%string).
  set (t := RTarget "orbitals.dat" "orbitals.dat" "orbitals.dat" BOscillator BOscillator 1 (Some (MAm ATotal, 2, (0, 0, 0))%Z)).
  assert (exists f, build one_file t = Ok (put one_file (t_out t) (FElements f))) as [f Hf].
  { destruct (am_square_file spline crme am_rme inv_sqrt_4pi one_file "orbitals.dat" "orbitals.dat" BOscillator ATotal three_orbitals) as (f & E & _); [reflexivity|exact three_proper|exact three_once|].
    exists f. exact E. }
  exists one_file, [line; line], [t; t]. split; [apply lines_control; reflexivity|]. split; [intros u [<-|[<-|[]]]; exists f; exact Hf|].
  unfold RgModel.radial_gen. assert (read_lines one_file rstate0 [line; line] = Ok [t; t]) as -> by reflexivity. cbn [bind RgModel.build_all]. rewrite Hf. cbn [bind].
  rewrite no_orbitals; [reflexivity|]. left. intros os. cbn [t_bra t t_out]. rewrite put_same. discriminate.
Qed.
(** the file for r^2 *)
Lemma square_case : exists f, build one_file (RTarget "orbitals.dat" "orbitals.dat" "out.dat" BOscillator BOscillator 1 (Some (MKinematic TR, 2, (0, 0, 0))%Z)) = Ok (put one_file "out.dat" (FElements f))
  /\ rf_radial f = false /\ entry (rf_sectors f) (rf_blocks f) 0 0 0 0 = 3 / 2 * (crme 0 1 0 1 0)%Z /\ entry (rf_sectors f) (rf_blocks f) 0 0 0 1 = - sqrt (3 / 2) * (crme 0 1 0 1 0)%Z
  /\ entry (rf_sectors f) (rf_blocks f) 1 0 1 0 = 5 / 2 * (crme 1 1 1 1 0)%Z /\ entry (rf_sectors f) (rf_blocks f) 0 0 1 0 = 0.
Proof.
  destruct (kinematic_file spline crme am_rme inv_sqrt_4pi one_file "orbitals.dat" "out.dat" BOscillator TR 2 0 0 0 three_orbitals
    (fun a n b n' => square_value 1 n (ll_l a) n' (ll_l b))) as (f & E & (H1 & H2 & H3 & H4 & O & A)); [reflexivity|exact three_proper| |].
  { intros o o' _ _ _. apply ri_square; auto. }
  exists f. split; [exact E|]. split; [exact H1|].
  assert (forall i n, nth_error [0; 1]%Z i = Some n -> orbital_at (forget (mk_wspace three_orbitals)) 0 i s_lab n) as Hs by (intros i n Hi; exists [0; 1]%Z; split; [reflexivity|exact Hi]).
  assert (orbital_at (forget (mk_wspace three_orbitals)) 1 0 p_lab 0) as Hp by (exists [0]%Z; split; reflexivity).
  assert (allowed (0, 0, 0)%Z s_lab s_lab /\ allowed (0, 0, 0)%Z p_lab p_lab /\ ~ allowed (0, 0, 0)%Z s_lab p_lab) as (A1 & A2 & A3).
  { rewrite !scalar_labels by (repeat split; cbn; lia). repeat split; discriminate. }
  split; [|split; [|split]].
  - rewrite (proj1 (A _ _ _ _ _ _ _ _ (Hs 0%nat 0%Z eq_refl) (Hs 0%nat 0%Z eq_refl)) A1). unfold square_value, square_equal. cbn [ll_l ll_2j s_lab Z.eqb Z.mul Z.add]. lra.
  - rewrite (proj1 (A _ _ _ _ _ _ _ _ (Hs 0%nat 0%Z eq_refl) (Hs 1%nat 1%Z eq_refl)) A1). unfold square_value, square_equal. cbn [ll_l ll_2j s_lab Z.eqb Pos.eqb Z.mul Z.add orb Z.max Z.compare Pos.add].
    replace (1 * (1 + 1 / 2)) with (3 / 2) by lra. reflexivity.
  - rewrite (proj1 (A _ _ _ _ _ _ _ _ Hp Hp) A2). unfold square_value, square_equal. cbn [ll_l ll_2j p_lab Z.eqb Pos.eqb Z.mul Z.add]. lra.
  - rewrite (proj2 (A _ _ _ _ _ _ _ _ (Hs 0%nat 0%Z eq_refl) Hp) A3). reflexivity.
Qed.
(** overlaps of the orbitals of a file with themselves, and with stretched functions *)
Lemma overlap_case : (forall n n' l, spline n l BOscillator n' l 2 BLaguerre false 0%Z = Num (IZR (10 * n + n'))) ->
  exists f f', build one_file (RTarget "orbitals.dat" "orbitals.dat" "out.dat" BOscillator BOscillator 1 (Some (MXform, 0, (0, 0, 0))%Z)) = Ok (put one_file "out.dat" (FElements f))
  /\ build one_file (RTarget "orbitals.dat" "orbitals.dat" "out.dat" BOscillator BLaguerre 2 (Some (MXform, 0, (0, 0, 0))%Z)) = Ok (put one_file "out.dat" (FElements f'))
  /\ entry (rf_sectors f) (rf_blocks f) 0 1 0 1 = 1 /\ entry (rf_sectors f) (rf_blocks f) 0 0 0 1 = 0 /\ entry (rf_sectors f') (rf_blocks f') 0 1 0 0 = 10 /\ entry (rf_sectors f') (rf_blocks f') 0 0 1 0 = 0.
Proof.
  intros Hs.
  destruct (xform_file spline crme am_rme inv_sqrt_4pi one_file "orbitals.dat" "orbitals.dat" "out.dat" BOscillator BOscillator 1 three_orbitals three_orbitals (fun _ n n' => if (n =? n')%Z then 1 else 0))
    as (f & E & (_ & _ & _ & _ & _ & _ & A)); [reflexivity|reflexivity|exact three_proper|exact three_proper|intros; apply oi_same; reflexivity|].
  destruct (xform_file spline crme am_rme inv_sqrt_4pi one_file "orbitals.dat" "orbitals.dat" "out.dat" BOscillator BLaguerre 2 three_orbitals three_orbitals (fun _ n n' => IZR (10 * n + n')))
    as (f' & E' & (_ & _ & _ & _ & _ & _ & A')); [reflexivity|reflexivity|exact three_proper|exact three_proper|intros; apply oi_integral; [left; discriminate|apply Hs]|].
  exists f, f'. split; [exact E|]. split; [exact E'|].
  assert (forall i n, nth_error [0; 1]%Z i = Some n -> orbital_at (forget (mk_wspace three_orbitals)) 0 i s_lab n) as Ho by (intros i n Hi; exists [0; 1]%Z; split; [reflexivity|exact Hi]).
  assert (orbital_at (forget (mk_wspace three_orbitals)) 1 0 p_lab 0) as Hp by (exists [0]%Z; split; reflexivity).
  split; [|split; [|split]].
  - apply (proj1 (A _ _ _ _ _ _ _ _ (Ho 1%nat 1%Z eq_refl) (Ho 1%nat 1%Z eq_refl)) eq_refl).
  - apply (proj1 (A _ _ _ _ _ _ _ _ (Ho 0%nat 0%Z eq_refl) (Ho 1%nat 1%Z eq_refl)) eq_refl).
  - rewrite (proj1 (A' _ _ _ _ _ _ _ _ (Ho 1%nat 1%Z eq_refl) (Ho 0%nat 0%Z eq_refl)) eq_refl). apply f_equal. reflexivity.
  - apply (proj2 (A' _ _ _ _ _ _ _ _ (Ho 0%nat 0%Z eq_refl) Hp)). discriminate.
Qed.
End Programs.

(** ** transformations *)
Definition d_lab : llabel := LL SN 2 5.
Definition two_bra : wspace R := [(s_lab, [(0%Z, 0); (1%Z, 0)]); (d_lab, [(0%Z, 0)])].
Definition two_ket : wspace R := [(s_lab, [(0%Z, 0)]); (d_lab, [(0%Z, 0); (1%Z, 0)])].
Definition x_file (u v : nat -> nat -> R) : rfile := RFile true (0, 0, 0)%Z two_bra two_ket [(0, 0); (1, 1)]%nat [Mat 2 1 u; Mat 1 2 v].
Lemma x_transformation : forall u v, transformation (x_file u v).
Proof.
  intros u v. unfold transformation, is_overlaps, x_file. cbn [rf_radial rf_q rf_bra rf_ket rf_sectors rf_blocks]. split; [auto|]. split; [reflexivity|]. split; [|split; [|split]].
  - split; [nodup|]. repeat constructor.
  - repeat constructor; cbn; lia.
  - repeat constructor; cbn; lia.
  - unfold distinct_labels. cbn. nodup.
Qed.
Lemma extract_case : forall u v, radial_extract (x_file u v) = Ok [XLine 0 0 1 1 2 [u 0%nat 0%nat; u 1%nat 0%nat]; XLine 0 2 5 (-1) 1 [v 0%nat 0%nat]; XLine 1 2 5 (-1) 1 [v 0%nat 1%nat]].
Proof. reflexivity. Qed.
(** orbitals of the ket that the bra does not have *)
Lemma missing_refuted : exists f, transformation f /\ radial_extract f = UB.
Proof.
  exists (RFile true (0, 0, 0)%Z [(s_lab, [(0%Z, 0)])] two_ket [(0, 0)]%nat [Mat 1 1 (fun _ _ => 1)]). split; [|reflexivity].
  unfold transformation, is_overlaps. cbn [rf_radial rf_q rf_bra rf_ket rf_sectors rf_blocks]. split; [auto|]. split; [reflexivity|]. split; [|split; [|split]].
  - split; [nodup|]. repeat constructor.
  - repeat constructor; cbn; lia.
  - repeat constructor; cbn; lia.
  - unfold distinct_labels. cbn. nodup.
Qed.
(** both spaces have the subspace asked for, at different places, or with different dimensions *)
Definition ask_s : plot_args := PArgs "oscillator" 1 0 1 0 3 6.
Definition late_file : rfile :=
  RFile true (0, 0, 0)%Z [(p_lab, [(0%Z, 0)])] [(s_lab, [(0%Z, 0)]); (p_lab, [(0%Z, 0)])] [(0, 1)]%nat [Mat 1 1 (fun _ _ => 1)].
Lemma late_transformation : transformation late_file.
Proof.
  unfold transformation, is_overlaps, late_file. cbn [rf_radial rf_q rf_bra rf_ket rf_sectors rf_blocks]. split; [auto|]. split; [reflexivity|]. split; [|split; [|split]].
  - split; [nodup|]. repeat constructor.
  - repeat constructor; cbn; lia.
  - repeat constructor; cbn; lia.
  - unfold distinct_labels. cbn. nodup.
Qed.
Lemma index_refuted : exists a f sp I K, transformation f /\ (p_species a = match sp with SP => 0 | SN => 1 end)%Z /\ label_of (forget (rf_bra f)) I = Some (LL sp (p_l a) (p_2j a))
  /\ label_of (forget (rf_ket f)) K = Some (LL sp (p_l a) (p_2j a)) /\ forall wave, radial_plot wave a f = UB.
Proof.
  exists (PArgs "oscillator" 1 1 1 0 3 6), late_file, SP, 0%nat, 1%nat. split; [exact late_transformation|]. repeat split; reflexivity.
Qed.
Lemma width_refuted : exists a f sp I, transformation f /\ (p_species a = match sp with SP => 0 | SN => 1 end)%Z /\ label_of (forget (rf_bra f)) I = Some (LL sp (p_l a) (p_2j a))
  /\ label_of (forget (rf_ket f)) I = Some (LL sp (p_l a) (p_2j a)) /\ forall wave, radial_plot wave a f = AssertFail.
Proof.
  exists ask_s, (x_file (fun _ _ => 1) (fun _ _ => 1)), SP, 0%nat. split; [apply x_transformation|]. repeat split; reflexivity.
Qed.
(** two functions turned by an angle, at three points *)
Lemma plot_case : forall wave x y, let f := RFile true (0, 0, 0)%Z [(s_lab, [(0%Z, 0); (1%Z, 0)])] [(s_lab, [(0%Z, 0); (1%Z, 0)])] [(0, 0)]%nat
    [Mat 2 2 (fun i j => if Nat.eqb i j then x else if Nat.ltb i j then y else - y)] in
  let w n i := wave n 0%Z 1 BOscillator (point 3 6 i) in
  (point 3 6 0 = 0 /\ point 3 6 1 = 3 /\ point 3 6 2 = 6)
  /\ radial_plot wave ask_s f = Ok (map (fun i => [point 3 6 i; w 0%Z i * x + w 1%Z i * - y; w 0%Z i * y + w 1%Z i * x]) [0; 1; 2]%nat).
Proof.
  intros wave x y f w. split; [unfold point; cbn; lra|]. rewrite (plot_rows f) with (bt := BOscillator) (sp := SP) (I := 0%nat) (ns := [0; 1]%Z).
  - f_equal. change (seq 0 (Z.to_nat (p_points ask_s))) with [0; 1; 2]%nat. apply map_ext. intros i. change (Z.to_nat (p_points ask_s)) with 3%nat. cbn [p_rmax ask_s length seq map rsum].
    f_equal. unfold w. f_equal; [|f_equal]; cbn; lra.
  - unfold transformation, is_overlaps, f. cbn [rf_radial rf_q rf_bra rf_ket rf_sectors rf_blocks]. split; [auto|]. split; [reflexivity|]. split; [|split; [|split]].
    + split; [nodup|]. repeat constructor.
    + repeat constructor; cbn; lia.
    + repeat constructor; cbn; lia.
    + unfold distinct_labels. cbn. nodup.
  - left. reflexivity.
  - reflexivity.
  - cbn. lia.
  - reflexivity.
  - reflexivity.
  - reflexivity.
Qed.
