(** C120-C125: radial-gen, radial-extract, radial-plot.
    The definitions used in the statements are in RgSpec.v (lines of the control file, oscillator elements, files), BlockSpec.v and ObmSpec.v (blocks,
    orbitals, elements), RgModel.v (code), and, in the cases, the files of RgCase.v. *)
From Coq Require Import String List ZArith Reals Bool.
From Verif Require Import Base RMat H2Model MapModel OscModel BlockModel BlockSpec ObioModel MixModel ObmModel ObmSpec NatModel RgModel RgSpec RgProof RgBuild RgMore RgCase.
Import ListNotations.
Open Scope R_scope.

(** C120.  What a line of the control file does. *)
Theorem C120_lines : forall fs kb kf line st' ts, read_line fs (kb, kf) line = Ok (st', ts) <-> takes fs kb kf line st' ts.
Proof. exact line_takes. Qed.
Print Assumptions C120_lines.

(** C120.  All lines in turn ... *)
Theorem C120_control : forall fs lines st ts, read_lines fs st lines = Ok ts <-> control fs st lines ts.
Proof. exact lines_control. Qed.
Print Assumptions C120_control.

(** C120.  ... and every other control file ends the program. *)
Theorem C120_other_lines : forall fs lines st, (exists ts, control fs st lines ts) \/ read_lines fs st lines = Exit.
Proof. exact lines_end. Qed.
Print Assumptions C120_other_lines.

(** C120.  An operator target of another mode is accepted, and its parameters are used uninitialised. *)
Theorem C120_unknown_mode : forall spline crme am_rme inv_sqrt_4pi, let build := build spline crme am_rme inv_sqrt_4pi in
  forall fs kf out kb os, fs kf = Some (FOrbitals os) -> build fs (RTarget kf kf out kb kb 1 None) = UB.
Proof. exact unknown_mode. Qed.
Print Assumptions C120_unknown_mode.

(** C120 refuted: such a control file. *)
Theorem C120_unknown_mode_refuted : forall spline crme am_rme inv_sqrt_4pi, let build := build spline crme am_rme inv_sqrt_4pi in let radial_gen := radial_gen spline crme am_rme inv_sqrt_4pi in
  exists fs lines ts, control fs rstate0 lines ts /\ radial_gen fs lines = UB.
Proof. exact unknown_mode_refuted. Qed.
Print Assumptions C120_unknown_mode_refuted.

(** C120.  A solid harmonic of negative order is accepted too ... *)
Theorem C120_negative : forall spline crme am_rme inv_sqrt_4pi, let build := build spline crme am_rme inv_sqrt_4pi in
  forall fs kf out kb t z g os, fs kf = Some (FOrbitals os) -> proper os -> (z < 0)%Z ->
  build fs (RTarget kf kf out kb kb 1 (Some (MSolid t, z, (z, g, 0%Z)))) = Ok (put fs out (FElements (RFile false (z, g, 0%Z) (mk_wspace os) (mk_wspace os) [] []))).
Proof. exact negative_order. Qed.
Print Assumptions C120_negative.

(** C120 refuted: ... and gives a file with rank and parity -1 without sectors. *)
Theorem C120_negative_refuted : forall spline crme am_rme inv_sqrt_4pi, let build := build spline crme am_rme inv_sqrt_4pi in let radial_gen := radial_gen spline crme am_rme inv_sqrt_4pi in
  exists fs lines fs' f, radial_gen fs lines = Ok fs' /\ fs' "out.dat"%string = Some (FElements f) /\ rf_q f = (-1, -1, 0)%Z /\ rf_sectors f = [].
Proof. exact negative_refuted. Qed.
Print Assumptions C120_negative_refuted.

Example C120_case : control one_file rstate0 good_control good_targets.
Proof. exact control_case. Qed.

Example C120_case_refused : read_lines one_file rstate0 [[tx "set-ket-basis"; tx "oscillator"; tx "missing.dat"]] = Exit
  /\ read_lines one_file rstate0 [[tx "define-operator-source"; tx "am"; tx "l"; tx "out.dat"]] = Exit
  /\ read_lines one_file rstate0 [[tx "define-operator-target"; tx "am"; tx "t"; tx "out.dat"]] = Exit
  /\ read_lines one_file rstate0 [[tx "define-radial-target"; tx "r"; iw "1" 1; tx "out.dat"]] = Exit.
Proof. exact exit_case. Qed.

(** C121.  Identity, r, ik, r^2, (ik)^2. *)
Theorem C121_kinematic : forall spline crme am_rme inv_sqrt_4pi, let build := build spline crme am_rme inv_sqrt_4pi in
  forall fs kf out kb t order J0 g0 Tz0 os rad, fs kf = Some (FOrbitals os) -> proper os -> radial_elements spline kb t order (J0, g0, Tz0) os rad ->
  exists f, build fs (RTarget kf kf out kb kb 1 (Some (MKinematic t, order, (J0, g0, Tz0)))) = Ok (put fs out (FElements f))
  /\ operator_file os false (J0, g0, Tz0) (fun a n b n' => rad a n b n' * crme (ll_l a) (ll_2j a) (ll_l b) (ll_2j b) J0) f.
Proof. exact kinematic_file. Qed.
Print Assumptions C121_kinematic.

(** C121.  Solid harmonics. *)
Theorem C121_solid_harmonic : forall spline crme am_rme inv_sqrt_4pi, let build := build spline crme am_rme inv_sqrt_4pi in
  forall fs kf out kb t order J0 g0 Tz0 os rad, fs kf = Some (FOrbitals os) -> proper os -> radial_elements spline kb t order (J0, g0, Tz0) os rad ->
  exists f, build fs (RTarget kf kf out kb kb 1 (Some (MSolid t, order, (J0, g0, Tz0)))) = Ok (put fs out (FElements f))
  /\ operator_file os false (J0, g0, Tz0) (fun a n b n' => sqrt (IZR (2 * order + 1)) * inv_sqrt_4pi * (rad a n b n' * crme (ll_l a) (ll_2j a) (ll_l b) (ll_2j b) J0)) f.
Proof. exact solid_file. Qed.
Print Assumptions C121_solid_harmonic.

(** C121.  l, s, j. *)
Theorem C121_angular_momentum : forall spline crme am_rme inv_sqrt_4pi, let build := build spline crme am_rme inv_sqrt_4pi in
  forall fs kf out kb t os, fs kf = Some (FOrbitals os) -> once os -> same_n os ->
  exists f, build fs (RTarget kf kf out kb kb 1 (Some (MAm t, 1, (1, 0, 0))%Z)) = Ok (put fs out (FElements f))
  /\ operator_file os false (1, 0, 0)%Z (fun a n b n' => if (n =? n')%Z then am_rme t (ll_l a) (ll_2j a) (ll_l b) (ll_2j b) else 0) f.
Proof. exact am_file. Qed.
Print Assumptions C121_angular_momentum.

(** C121.  l^2, s^2, j^2. *)
Theorem C121_squares : forall spline crme am_rme inv_sqrt_4pi, let build := build spline crme am_rme inv_sqrt_4pi in
  forall fs kf out kb t os, fs kf = Some (FOrbitals os) -> proper os -> once os ->
  exists f, build fs (RTarget kf kf out kb kb 1 (Some (MAm t, 2, (0, 0, 0))%Z)) = Ok (put fs out (FElements f))
  /\ operator_file os false (0, 0, 0)%Z (fun a n b n' => if (n =? n')%Z then casimir t a else 0) f.
Proof. exact am_square_file. Qed.
Print Assumptions C121_squares.

(** C121.  t_z, t_+, t_-. *)
Theorem C121_isospin : forall spline crme am_rme inv_sqrt_4pi, let build := build spline crme am_rme inv_sqrt_4pi in
  forall fs kf out kb Tz0 os, fs kf = Some (FOrbitals os) -> once os -> same_n os ->
  exists f, build fs (RTarget kf kf out kb kb 1 (Some (MIsospin, 0, (0, 0, Tz0))%Z)) = Ok (put fs out (FElements f))
  /\ operator_file os false (0, 0, Tz0)%Z (fun a n b n' => if (n =? n')%Z then if (Tz0 =? 0)%Z then match ll_sp b with SP => 1 / 2 | SN => - (1 / 2) end else 1 else 0) f.
Proof. exact isospin_file. Qed.
Print Assumptions C121_isospin.

(** C121.  Radial files: no angular factor. *)
Theorem C121_radial : forall spline crme am_rme inv_sqrt_4pi, let build := build spline crme am_rme inv_sqrt_4pi in
  forall fs kf out kb t order J0 g0 Tz0 os rad, fs kf = Some (FOrbitals os) -> proper os -> radial_elements spline kb t order (J0, g0, Tz0) os rad ->
  exists f, build fs (RTarget kf kf out kb kb 1 (Some (MRadial t, order, (J0, g0, Tz0)))) = Ok (put fs out (FElements f)) /\ operator_file os true (J0, g0, Tz0) rad f.
Proof. exact radial_file. Qed.
Print Assumptions C121_radial.

Example C121_case : forall spline crme am_rme inv_sqrt_4pi, let build := build spline crme am_rme inv_sqrt_4pi in
  exists f, build one_file (RTarget "orbitals.dat" "orbitals.dat" "out.dat" BOscillator BOscillator 1 (Some (MKinematic TR, 2, (0, 0, 0))%Z)) = Ok (put one_file "out.dat" (FElements f))
  /\ rf_radial f = false /\ entry (rf_sectors f) (rf_blocks f) 0 0 0 0 = 3 / 2 * (crme 0 1 0 1 0)%Z /\ entry (rf_sectors f) (rf_blocks f) 0 0 0 1 = - sqrt (3 / 2) * (crme 0 1 0 1 0)%Z
  /\ entry (rf_sectors f) (rf_blocks f) 1 0 1 0 = 5 / 2 * (crme 1 1 1 1 0)%Z /\ entry (rf_sectors f) (rf_blocks f) 0 0 1 0 = 0.
Proof. exact square_case. Qed.

(** C122.  Overlaps between two orbital files. *)
Theorem C122_overlaps : forall spline crme am_rme inv_sqrt_4pi, let build := build spline crme am_rme inv_sqrt_4pi in
  forall fs bf kf out bb kb c bo ko g, fs bf = Some (FOrbitals bo) -> fs kf = Some (FOrbitals ko) -> proper bo -> proper ko ->
  (forall o o', In o bo -> In o' ko -> oi_lab o = oi_lab o' -> overlap_is spline bb kb c (ll_l (oi_lab o)) (oi_n o) (oi_n o') (g (oi_lab o) (oi_n o) (oi_n o'))) ->
  exists f, build fs (RTarget bf kf out bb kb c (Some (MXform, 0, (0, 0, 0))%Z)) = Ok (put fs out (FElements f)) /\ overlaps_file bo ko g f.
Proof. exact xform_file. Qed.
Print Assumptions C122_overlaps.

(** C122.  ... are what radial-extract and radial-plot take. *)
Theorem C122_accepted : forall bo ko g f, proper bo -> proper ko -> overlaps_file bo ko g f -> transformation f.
Proof. exact overlaps_transform. Qed.
Print Assumptions C122_accepted.

Example C122_case : forall spline crme am_rme inv_sqrt_4pi, let build := build spline crme am_rme inv_sqrt_4pi in
  (forall n n' l, spline n l BOscillator n' l 2 BLaguerre false 0%Z = Num (IZR (10 * n + n'))) ->
  exists f f', build one_file (RTarget "orbitals.dat" "orbitals.dat" "out.dat" BOscillator BOscillator 1 (Some (MXform, 0, (0, 0, 0))%Z)) = Ok (put one_file "out.dat" (FElements f))
  /\ build one_file (RTarget "orbitals.dat" "orbitals.dat" "out.dat" BOscillator BLaguerre 2 (Some (MXform, 0, (0, 0, 0))%Z)) = Ok (put one_file "out.dat" (FElements f'))
  /\ entry (rf_sectors f) (rf_blocks f) 0 1 0 1 = 1 /\ entry (rf_sectors f) (rf_blocks f) 0 0 0 1 = 0 /\ entry (rf_sectors f') (rf_blocks f') 0 1 0 0 = 10 /\ entry (rf_sectors f') (rf_blocks f') 0 0 1 0 = 0.
Proof. exact overlap_case. Qed.

(** C123.  The program writes the file of each target, from the files as they were. *)
Theorem C123_files : forall spline crme am_rme inv_sqrt_4pi, let build := build spline crme am_rme inv_sqrt_4pi in let radial_gen := radial_gen spline crme am_rme inv_sqrt_4pi in
  forall fs lines ts, control fs rstate0 lines ts -> outputs_apart ts ->
  (forall t, In t ts -> exists f, build fs t = Ok (put fs (t_out t) (FElements f))) ->
  exists fs', radial_gen fs lines = Ok fs' /\ (forall n, (forall t, In t ts -> t_out t <> n) -> fs' n = fs n)
  /\ forall pre t post f, ts = pre ++ t :: post -> (forall t', In t' post -> t_out t' <> t_out t) -> build fs t = Ok (put fs (t_out t) (FElements f)) ->
       fs' (t_out t) = Some (FElements f).
Proof. exact program_files. Qed.
Print Assumptions C123_files.

(** C123.  ... and ends well in no other case. *)
Theorem C123_needs : forall spline crme am_rme inv_sqrt_4pi, let build := build spline crme am_rme inv_sqrt_4pi in let radial_gen := radial_gen spline crme am_rme inv_sqrt_4pi in
  forall fs lines fs', radial_gen fs lines = Ok fs' -> exists ts, control fs rstate0 lines ts
  /\ (outputs_apart ts -> forall t, In t ts -> exists f, build fs t = Ok (put fs (t_out t) (FElements f))).
Proof. exact program_needs. Qed.
Print Assumptions C123_needs.

(** C123.  Missing orbitals (orbitals.dat is never checked when the control file is read) end the program. *)
Theorem C123_no_orbitals : forall spline crme am_rme inv_sqrt_4pi, let build := build spline crme am_rme inv_sqrt_4pi in
  forall fs t, (forall os, fs (t_bra t) <> Some (FOrbitals os)) \/ (forall os, fs (t_ket t) <> Some (FOrbitals os)) -> build fs t = Exit.
Proof. exact no_orbitals. Qed.
Print Assumptions C123_no_orbitals.

(** C123 refuted for outputs which are orbital files of later targets. *)
Theorem C123_overwrite_refuted : forall spline crme am_rme inv_sqrt_4pi, let build := build spline crme am_rme inv_sqrt_4pi in let radial_gen := radial_gen spline crme am_rme inv_sqrt_4pi in
  exists fs lines ts, control fs rstate0 lines ts
  /\ (forall t, In t ts -> exists f, build fs t = Ok (put fs (t_out t) (FElements f))) /\ radial_gen fs lines = Exit.
Proof. exact overwrite_refuted. Qed.
Print Assumptions C123_overwrite_refuted.

(** C124.  One line for each ket state, with its amplitudes. *)
Theorem C124_lines : forall f, transformation f -> let bra := forget (rf_bra f) in let ket := forget (rf_ket f) in let s := rf_sectors f in let ms := rf_blocks f in
  (forall K a, label_of ket K = Some a -> exists I, label_of bra I = Some a) ->
  exists ls, radial_extract f = Ok ls /\ Forall2 (column f) (states_in_order ket) ls.
Proof. exact extract_lines. Qed.
Print Assumptions C124_lines.

(** C124.  A ket subspace that the bra space does not have is looked up nevertheless. *)
Theorem C124_missing : forall f, transformation f -> let bra := forget (rf_bra f) in let ket := forget (rf_ket f) in let s := rf_sectors f in let ms := rf_blocks f in
  forall K a, label_of ket K = Some a -> (forall I, label_of bra I <> Some a) -> radial_extract f = UB.
Proof. exact extract_missing. Qed.
Print Assumptions C124_missing.

(** C124 refuted: such a file. *)
Theorem C124_missing_refuted : exists f, transformation f /\ radial_extract f = UB.
Proof. exact missing_refuted. Qed.
Print Assumptions C124_missing_refuted.

(** C124.  Other operators are not accepted. *)
Theorem C124_other_files : forall f, ~ is_overlaps f -> radial_extract f = AssertFail.
Proof. exact extract_other. Qed.
Print Assumptions C124_other_files.

(** C124.  Two arguments. *)
Theorem C124_arguments : forall fs args ls, radial_extract_main fs args = Ok ls <-> exists xf out f, args = [xf; out] /\ fs xf = Some (FElements f) /\ radial_extract f = Ok ls.
Proof. exact extract_args. Qed.
Print Assumptions C124_arguments.

Example C124_case : forall u v, radial_extract (x_file u v) = Ok [XLine 0 0 1 1 2 [u 0%nat 0%nat; u 1%nat 0%nat]; XLine 0 2 5 (-1) 1 [v 0%nat 0%nat]; XLine 1 2 5 (-1) 1 [v 0%nat 1%nat]].
Proof. exact extract_case. Qed.

(** C125.  The transformed functions at the points. *)
Theorem C125_values : forall f, transformation f -> let bra := forget (rf_bra f) in let ket := forget (rf_ket f) in let s := rf_sectors f in let ms := rf_blocks f in
  forall wave, forall a bt sp I ns, In (p_basis a, bt) bases -> (p_species a = match sp with SP => 0 | SN => 1 end)%Z -> (0 <= p_points a)%Z ->
  nth_error bra I = Some (LL sp (p_l a) (p_2j a), ns) -> label_of ket I = Some (LL sp (p_l a) (p_2j a)) -> sub_dim ket I = length ns ->
  radial_plot wave a f = Ok (map (fun i => point (Z.to_nat (p_points a)) (p_rmax a) i
     :: map (fun k => rsum (length ns) (fun b => wave (nth b ns 0%Z) (p_l a) (p_scale a) bt (point (Z.to_nat (p_points a)) (p_rmax a) i) * entry s ms I b I k)) (seq 0 (length ns)))
     (seq 0 (Z.to_nat (p_points a)))).
Proof. exact plot_rows. Qed.
Print Assumptions C125_values.

(** C125.  A subspace that does not exist. *)
Theorem C125_absent : forall f, transformation f -> let bra := forget (rf_bra f) in let ket := forget (rf_ket f) in let s := rf_sectors f in let ms := rf_blocks f in
  forall wave, forall a bt, In (p_basis a, bt) bases ->
  (forall sp I, (p_species a = match sp with SP => 0 | SN => 1 end)%Z -> label_of bra I <> Some (LL sp (p_l a) (p_2j a))) -> radial_plot wave a f = UB.
Proof. exact plot_absent. Qed.
Print Assumptions C125_absent.

(** C125.  The index of the bra subspace is used for the ket ... *)
Theorem C125_index : forall f, transformation f -> let bra := forget (rf_bra f) in let ket := forget (rf_ket f) in let s := rf_sectors f in let ms := rf_blocks f in
  forall wave, forall a bt sp I, In (p_basis a, bt) bases -> (p_species a = match sp with SP => 0 | SN => 1 end)%Z ->
  label_of bra I = Some (LL sp (p_l a) (p_2j a)) -> label_of ket I <> Some (LL sp (p_l a) (p_2j a)) -> radial_plot wave a f = UB.
Proof. exact plot_index. Qed.
Print Assumptions C125_index.

(** C125 refuted: both spaces have the subspace. *)
Theorem C125_index_refuted : exists a f sp I K, transformation f /\ (p_species a = match sp with SP => 0 | SN => 1 end)%Z /\ label_of (forget (rf_bra f)) I = Some (LL sp (p_l a) (p_2j a))
  /\ label_of (forget (rf_ket f)) K = Some (LL sp (p_l a) (p_2j a)) /\ forall wave, radial_plot wave a f = UB.
Proof. exact index_refuted. Qed.
Print Assumptions C125_index_refuted.

(** C125.  ... and its dimension for the columns. *)
Theorem C125_width : forall f, transformation f -> let bra := forget (rf_bra f) in let ket := forget (rf_ket f) in let s := rf_sectors f in let ms := rf_blocks f in
  forall wave, forall a bt sp I, In (p_basis a, bt) bases -> (p_species a = match sp with SP => 0 | SN => 1 end)%Z ->
  label_of bra I = Some (LL sp (p_l a) (p_2j a)) -> label_of ket I = Some (LL sp (p_l a) (p_2j a)) -> sub_dim ket I <> sub_dim bra I -> radial_plot wave a f = AssertFail.
Proof. exact plot_width. Qed.
Print Assumptions C125_width.

(** C125 refuted: both spaces have the subspace at the same place. *)
Theorem C125_width_refuted : exists a f sp I, transformation f /\ (p_species a = match sp with SP => 0 | SN => 1 end)%Z /\ label_of (forget (rf_bra f)) I = Some (LL sp (p_l a) (p_2j a))
  /\ label_of (forget (rf_ket f)) I = Some (LL sp (p_l a) (p_2j a)) /\ forall wave, radial_plot wave a f = AssertFail.
Proof. exact width_refuted. Qed.
Print Assumptions C125_width_refuted.

(** C125.  Other files ... *)
Theorem C125_other_files : forall wave a bt f, In (p_basis a, bt) bases -> ~ is_overlaps f -> radial_plot wave a f = AssertFail.
Proof. exact plot_other. Qed.
Print Assumptions C125_other_files.

(** C125.  ... and bases. *)
Theorem C125_basis : forall wave a f, (forall bt, ~ In (p_basis a, bt) bases) -> radial_plot wave a f = Exit.
Proof. exact plot_basis. Qed.
Print Assumptions C125_basis.

Example C125_case : forall wave x y, let f := RFile true (0, 0, 0)%Z [(s_lab, [(0%Z, 0); (1%Z, 0)])] [(s_lab, [(0%Z, 0); (1%Z, 0)])] [(0, 0)]%nat
    [Mat 2 2 (fun i j => if Nat.eqb i j then x else if Nat.ltb i j then y else - y)] in
  let w n i := wave n 0%Z 1 BOscillator (point 3 6 i) in
  (point 3 6 0 = 0 /\ point 3 6 1 = 3 /\ point 3 6 2 = 6)
  /\ radial_plot wave ask_s f = Ok (map (fun i => [point 3 6 i; w 0%Z i * x + w 1%Z i * - y; w 0%Z i * y + w 1%Z i * x]) [0; 1; 2]%nat).
Proof. exact plot_case. Qed.

