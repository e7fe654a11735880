(** Vocabulary for C120 - C125: lines of the control file of radial-gen, oscillator elements of r, ik and their squares, files. *)
From Coq Require Import String List ZArith Reals Bool.
From Verif Require Import Base RMat H2Model MapModel OscModel BlockModel BlockSpec ObioModel MixModel ObmModel ObmSpec NatModel RgModel.
Import ListNotations.
Open Scope R_scope.

Local Open Scope string_scope.
(** operator targets without further parameters: mode, id, what is requested (mode, order, rank, parity, charge) *)
Definition operator_table : list (string * string * (rmode * Z * qn)) :=
  [("kinematic", "identity", (MKinematic TOther, 0, (0, 0, 0))%Z);
   ("kinematic", "r", (MKinematic TR, 1, (1, 1, 0))%Z); ("kinematic", "ik", (MKinematic TK, 1, (1, 1, 0))%Z);
   ("kinematic", "r.r", (MKinematic TR, 2, (0, 0, 0))%Z); ("kinematic", "ik.ik", (MKinematic TK, 2, (0, 0, 0))%Z);
   ("am", "l", (MAm AOrbital, 1, (1, 0, 0))%Z); ("am", "l2", (MAm AOrbital, 2, (0, 0, 0))%Z);
   ("am", "s", (MAm ASpin, 1, (1, 0, 0))%Z); ("am", "s2", (MAm ASpin, 2, (0, 0, 0))%Z);
   ("am", "j", (MAm ATotal, 1, (1, 0, 0))%Z); ("am", "j2", (MAm ATotal, 2, (0, 0, 0))%Z);
   ("isospin", "tz", (MIsospin, 0, (0, 0, 0))%Z); ("isospin", "t+", (MIsospin, 0, (0, 0, 1))%Z); ("isospin", "t-", (MIsospin, 0, (0, 0, -1))%Z)].
(** radial coordinates by name: those documented, and two more *)
Definition coordinates : list (string * radial_type) := [("r", TR); ("k", TK); ("ik", TK); ("o", TOther); ("g", TOther)].
Definition bases : list (string * radial_basis) := [("oscillator", BOscillator); ("laguerre", BLaguerre)].
Definition modes : list string := ["kinematic"; "solid-harmonic"; "am"; "isospin"].

(** what a line does: new ket basis, or one target; words at the end of a line are ignored *)
Inductive takes (fs : files) (kb : radial_basis) (kf : string) : list word -> rstate -> list rtarget -> Prop :=
| takes_basis : forall k w1 w2 rest bt, w_text k = "set-ket-basis" -> In (w_text w1, bt) bases -> fs (w_text w2) <> None ->
    takes fs kb kf (k :: w1 :: w2 :: rest) (bt, w_text w2) []
| takes_operator : forall k w1 w2 w3 rest op, w_text k = "define-operator-target" -> In (w_text w1, w_text w2, op) operator_table ->
    takes fs kb kf (k :: w1 :: w2 :: w3 :: rest) (kb, kf) [RTarget kf kf (w_text w3) kb kb 1 (Some op)]
| takes_solid : forall k w1 w2 w3 w4 rest t z, w_text k = "define-operator-target" -> w_text w1 = "solid-harmonic" -> In (w_text w2, t) coordinates -> w_int w3 = Some z ->
    takes fs kb kf (k :: w1 :: w2 :: w3 :: w4 :: rest) (kb, kf) [RTarget kf kf (w_text w4) kb kb 1 (Some (MSolid t, z, (z, Z.rem z 2, 0%Z)))]
| takes_unknown_mode : forall k w1 w2 w3 rest, w_text k = "define-operator-target" -> ~ In (w_text w1) modes ->
    takes fs kb kf (k :: w1 :: w2 :: w3 :: rest) (kb, kf) [RTarget kf kf (w_text w3) kb kb 1 None]
| takes_radial : forall k w1 w2 w3 w4 w5 w6 rest t order J0 g0 Tz0, w_text k = "define-radial-target" -> In (w_text w1, t) coordinates ->
    w_int w2 = Some order -> w_int w3 = Some J0 -> w_int w4 = Some g0 -> w_int w5 = Some Tz0 ->
    takes fs kb kf (k :: w1 :: w2 :: w3 :: w4 :: w5 :: w6 :: rest) (kb, kf) [RTarget kf kf (w_text w6) kb kb 1 (Some (MRadial t, order, (J0, g0, Tz0)))]
| takes_xform : forall k w1 w2 w3 w4 rest c bt, w_text k = "define-xform-target" -> w_num w1 = Some c -> In (w_text w2, bt) bases -> fs (w_text w3) <> None ->
    takes fs kb kf (k :: w1 :: w2 :: w3 :: w4 :: rest) (kb, kf) [RTarget (w_text w3) kf (w_text w4) bt kb c (Some (MXform, 0, (0, 0, 0))%Z)].
(** a control file: each line in turn, starting with an oscillator basis and the orbitals of orbitals.dat *)
Inductive control (fs : files) : rstate -> list (list word) -> list rtarget -> Prop :=
| control_end : forall st, control fs st [] []
| control_blank : forall st ls ts, control fs st ls ts -> control fs st ([] :: ls) ts
| control_line : forall kb kf line st' t ls ts, takes fs kb kf line st' t -> control fs st' ls ts -> control fs (kb, kf) (line :: ls) (t ++ ts).
Local Close Scope string_scope.

(** elements of r (s = 1) and ik (s = -1) between oscillator functions of unit length: (s c+ + c) / sqrt 2 *)
Definition vector_value (s : R) (n l n' l' : Z) : R := (s * raise_value n l n' l' + raise_value n' l' n l) / k_sqrt_2.
(** r^2 and (ik)^2 between functions of equal l ... *)
Definition square_equal (s : R) (n n' l : Z) : R :=
  if (n =? n')%Z then s * (IZR (2 * n + l) + 3 / 2)
  else if (n =? n' + 1)%Z || (n' =? n + 1)%Z then let m := Z.max n n' in - sqrt (IZR m * (IZR (m + l) + 1 / 2)) else 0.
(** ... and from l to l + 2 *)
Definition square_up (s : R) (n n' l : Z) : R :=
  if (n =? n')%Z then sqrt ((IZR (n + l) + 5 / 2) * (IZR (n + l) + 3 / 2))
  else if (n =? n' - 1)%Z then - (s * (2 * sqrt (IZR n' * (IZR (n' + l) + 3 / 2))))
  else if (n =? n' - 2)%Z then sqrt (IZR (n' - 1) * IZR n') else 0.
Definition square_value (s : R) (n l n' l' : Z) : R :=
  if (l =? l')%Z then square_equal s n n' l
  else if (l =? l' + 2)%Z then square_up s n n' l' else if (l' =? l + 2)%Z then square_up s n' n l else 0.
Definition sign_of (t : radial_type) : R := match t with TK => -1 | _ => 1 end.

(** the radial element of a coordinate to some power: the unit operator, the oscillator formulas, or the numerical integral *)
Inductive radial_is (spline : spline_me) (bt : radial_basis) (t : radial_type) (order J0 g0 n l n' l' : Z) : R -> Prop :=
| ri_unit : order = 0%Z -> radial_is spline bt t order J0 g0 n l n' l' (if (n =? n')%Z && (l =? l')%Z then 1 else 0)
| ri_vector : bt = BOscillator -> (order, J0, g0) = (1, 1, 1)%Z -> radial_is spline bt t order J0 g0 n l n' l' (vector_value (sign_of t) n l n' l')
| ri_square : bt = BOscillator -> order = 2%Z -> (J0 = 0 \/ J0 = 2)%Z -> g0 = 0%Z -> radial_is spline bt t order J0 g0 n l n' l' (square_value (sign_of t) n l n' l')
| ri_integral : forall x, order <> 0%Z -> (bt = BOscillator -> (order, J0, g0) <> (1, 1, 1)%Z /\ ~ (order = 2%Z /\ (J0 = 0 \/ J0 = 2)%Z /\ g0 = 0%Z)) ->
    spline n l bt n' l' 1 bt (match t with TK => true | _ => false end) order = Num x -> radial_is spline bt t order J0 g0 n l n' l' x.
(** [rad] gives the radial elements between all orbitals of a list that the operator connects *)
Definition radial_elements (spline : spline_me) (bt : radial_basis) (t : radial_type) (order : Z) (q : qn) (os : list (oinfo R)) (rad : llabel -> Z -> llabel -> Z -> R) : Prop :=
  forall o o', In o os -> In o' os -> allowed q (oi_lab o) (oi_lab o') ->
    radial_is spline bt t order (fst (fst q)) (snd (fst q)) (oi_n o) (ll_l (oi_lab o)) (oi_n o') (ll_l (oi_lab o')) (rad (oi_lab o) (oi_n o) (oi_lab o') (oi_n o')).

(** a file written for one space, with the elements [g] *)
Definition operator_file (os : list (oinfo R)) (radial : bool) (q : qn) (g : llabel -> Z -> llabel -> Z -> R) (f : rfile) : Prop :=
  rf_radial f = radial /\ rf_q f = q /\ rf_bra f = mk_wspace os /\ rf_ket f = mk_wspace os
  /\ tensor_op (forget (mk_wspace os)) q (rf_sectors f) (rf_blocks f) /\ elements (forget (mk_wspace os)) q (rf_sectors f) (rf_blocks f) g.
(** orbitals as they are in orbital files: l, j = l +- 1/2, n >= 0 *)
Definition proper (os : list (oinfo R)) : Prop := Forall (fun o => spin_half (oi_lab o) /\ (0 <= oi_n o)%Z) os.
(** no orbital twice *)
Definition once (os : list (oinfo R)) : Prop := NoDup (map (fun o => (oi_lab o, oi_n o)) os).
(** state number of (a, n) in a space; all subspaces have their states in order of n = 0, 1, ... *)
Definition same_n (os : list (oinfo R)) : Prop := aligned (forget (mk_wspace os)).

(** a file of overlaps between the orbitals of two lists *)
Definition overlaps_file (bo ko : list (oinfo R)) (g : llabel -> Z -> Z -> R) (f : rfile) : Prop :=
  rf_radial f = true /\ rf_q f = (0, 0, 0)%Z /\ rf_bra f = mk_wspace bo /\ rf_ket f = mk_wspace ko
  /\ rf_sectors f = sectors_of (forget (mk_wspace bo)) (forget (mk_wspace ko)) (0, 0, 0)%Z
  /\ op_ok (forget (mk_wspace bo)) (forget (mk_wspace ko)) (rf_sectors f) (rf_blocks f)
  /\ forall I i K k a n b n', orbital_at (forget (mk_wspace bo)) I i a n -> orbital_at (forget (mk_wspace ko)) K k b n' ->
       (a = b -> entry (rf_sectors f) (rf_blocks f) I i K k = g a n n') /\ (a <> b -> entry (rf_sectors f) (rf_blocks f) I i K k = 0).
(** overlap of basis functions: that of equal functions, or the numerical integral with the ket stretched by [c] *)
Inductive overlap_is (spline : spline_me) (bb kb : radial_basis) (c : R) (l n n' : Z) : R -> Prop :=
| oi_same : bb = kb -> c = 1 -> overlap_is spline bb kb c l n n' (if (n =? n')%Z then 1 else 0)
| oi_integral : forall x, bb <> kb \/ c <> 1 -> spline n l bb n' l c kb false 0%Z = Num x -> overlap_is spline bb kb c l n n' x.

(** no target overwrites an orbital file of another target or its own *)
Definition outputs_apart (ts : list rtarget) : Prop := forall t t', In t ts -> In t' ts -> t_out t <> t_bra t' /\ t_out t <> t_ket t'.

(** the file holds radial overlaps between its two spaces *)
Definition is_overlaps (f : rfile) : Prop := rf_radial f = true /\ rf_q f = (0, 0, 0)%Z.
(** a transformation: overlaps with all blocks, orbitals with l, j = l +- 1/2, no subspace twice *)
Definition transformation (f : rfile) : Prop :=
  is_overlaps f /\ rf_sectors f = sectors_of (forget (rf_bra f)) (forget (rf_ket f)) (0, 0, 0)%Z
  /\ op_ok (forget (rf_bra f)) (forget (rf_ket f)) (rf_sectors f) (rf_blocks f)
  /\ Forall (fun x => spin_half (fst x)) (forget (rf_bra f)) /\ Forall (fun x => spin_half (fst x)) (forget (rf_ket f))
  /\ distinct_labels (forget (rf_bra f)).
(** states of a space in order *)
Definition states_in_order (sp : lspace) : list (nat * nat) := flat_map (fun K => map (pair K) (seq 0 (sub_dim sp K))) (seq 0 (length sp)).
(** a line with the labels of state [k] of ket subspace [K], and its amplitudes in the bra subspace with the same labels *)
Definition column (f : rfile) (p : nat * nat) (x : xline) : Prop :=
  exists a n I, orbital_at (forget (rf_ket f)) (fst p) (snd p) a n /\ label_of (forget (rf_bra f)) I = Some a
  /\ x = XLine n (ll_l a) (ll_2j a) (match ll_sp a with SP => 1 | SN => -1 end)%Z (sub_dim (forget (rf_bra f)) I)
            (map (fun i => entry (rf_sectors f) (rf_blocks f) I i (fst p) (snd p)) (seq 0 (sub_dim (forget (rf_bra f)) I))).
(** point [i] of [np] equally spaced points from 0 to [r_max] *)
Definition point (np : nat) (r_max : R) (i : nat) : R := if Nat.eqb np 1 then r_max else INR i * r_max / INR (np - 1).
