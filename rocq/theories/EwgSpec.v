(** Vocabulary for C139-C142: statements of the control file of ew-gen, and the files written. *)
From Coq Require Import String List ZArith Reals Bool.
From Verif Require Import Base RMat H2Model MapModel OscModel BlockModel BlockSpec ObioModel MixModel ObmModel ObmSpec RgModel HmModel StmtSpec EwgModel.
Import ListNotations.
Open Scope R_scope.
Open Scope string_scope.

Inductive ewstatement : Type :=
| Comment
| Orbitals (file : string)
| Scale (x : R)
| Radial (t : radial_type) (power : Z) (file : string)
| Momentum (t : am_type) (file : string)
| Charge (Tz0 : Z) (file : string)
| Wanted (t : ewtarget).
(** what a line says; words after those needed are ignored *)
Inductive ewsays : list word -> ewstatement -> Prop :=
| ew_blank : ewsays [] Comment
| ew_comment : forall k rest, w_text k = "#" \/ w_text k = "" -> ewsays (k :: rest) Comment
| ew_indexing : forall k f rest, w_text k = "set-indexing" -> ewsays (k :: f :: rest) (Orbitals (w_text f))
| ew_factor : forall k a rest x, w_text k = "set-basis-scale-factor" -> w_num a = Some x -> ewsays (k :: a :: rest) (Scale x)
| ew_radial_source : forall k t a f rest ty power, w_text k = "define-radial-source" ->
    In (w_text t, ty) [("r", TR); ("k", TK); ("ik", TK); ("o", TOther); ("g", TOther)] -> w_int a = Some power ->
    ewsays (k :: t :: a :: f :: rest) (Radial ty power (w_text f))
| ew_am_source : forall k t f rest ty, w_text k = "define-am-source" -> In (w_text t, ty) [("l", AOrbital); ("s", ASpin)] ->
    ewsays (k :: t :: f :: rest) (Momentum ty (w_text f))
| ew_isospin_source : forall k t f rest Tz0, w_text k = "define-isospin-source" -> In (w_text t, Tz0) [("tz", 0%Z); ("t+", 1%Z); ("t-", (-1)%Z)] ->
    ewsays (k :: t :: f :: rest) (Charge Tz0 (w_text f))
| ew_em_target : forall k t a s f rest ty lambda sp, w_text k = "define-em-target" -> In (w_text t, ty) [("E", ElE); ("Dl", ElDl); ("Ds", ElDs)] ->
    w_int a = Some lambda -> In (w_text s, sp) [("p", Some SP); ("n", Some SN); ("total", None)] ->
    ewsays (k :: t :: a :: s :: f :: rest) (Wanted (EmTarget ty lambda sp (w_text f)))
| ew_weak_target : forall k t f rest gt, w_text k = "define-weak-target" -> In (w_text t, gt) [("F", false); ("GT", true)] ->
    ewsays (k :: t :: f :: rest) (Wanted (WeakTarget gt (w_text f))).
(** the file of a source: a spherical tensor operator on one space *)
Definition good_file (d : ewdisk) (file : string) (f : obfile) : Prop := ew_elements d file = Some (f, true) /\ of_bra f = of_ket f.
(** the files of a statement can be read *)
Definition readable (d : ewdisk) (s : ewstatement) : Prop :=
  match s with
  | Orbitals f => ew_orbitals d f <> None
  | Radial _ _ f | Momentum _ f | Charge _ f => exists x, good_file d f x
  | _ => True
  end.
(** parts of a control file *)
Definition orbitals_of (s : ewstatement) : option string := match s with Orbitals f => Some f | _ => None end.
Definition scale_of (s : ewstatement) : option R := match s with Scale x => Some x | _ => None end.
Definition power_of (n : Z) (s : ewstatement) : option string := match s with Radial TR p f => if Z.eq_dec p n then Some f else None | _ => None end.
Definition momentum_of (spin : bool) (s : ewstatement) : option string :=
  match s with Momentum AOrbital f => if spin then None else Some f | Momentum ASpin f => if spin then Some f else None | _ => None end.
Definition charge_of (n : Z) (s : ewstatement) : option string := match s with Charge p f => if Z.eq_dec p n then Some f else None | _ => None end.
Definition wanted (s : ewstatement) : option ewtarget := match s with Wanted t => Some t | _ => None end.
(** the orbitals: those of the last set-indexing *)
Definition ew_run_space (d : ewdisk) (sts : list ewstatement) : lspace :=
  match the_last orbitals_of sts with Some f => match ew_orbitals d f with Some os => forget (mk_wspace os) | None => [] end | None => [] end.
(** the operator of a source: that of the first statement for it *)
Definition source_file (d : ewdisk) (o : option string) : option obfile := match o with Some f => option_map fst (ew_elements d f) | None => None end.
Definition radial_op (d : ewdisk) (sts : list ewstatement) (n : Z) : option obfile := source_file d (the_first (power_of n) sts).
Definition am_op (d : ewdisk) (sts : list ewstatement) (spin : bool) : option obfile := source_file d (the_first (momentum_of spin) sts).
Definition charge_op (d : ewdisk) (sts : list ewstatement) (n : Z) : option obfile := source_file d (the_first (charge_of n) sts).
Record ewmeans (d : ewdisk) (r : ewrun) (sts : list ewstatement) : Prop := EwMeans {
  em_space : ew_space r = ew_run_space d sts;
  em_scale : ew_scale r = the_last scale_of sts;
  em_radial : forall n, find_op Z.eqb (of_kind_r (ew_radial r)) n = radial_op d sts n;
  em_am : forall spin : bool, find_op am_eqb (ew_am r) (if spin then ASpin else AOrbital) = am_op d sts spin;
  em_charge : forall n, find_op Z.eqb (ew_iso r) n = charge_op d sts n;
  em_targets : ew_targets r = every wanted sts }.

(** * the file of a target: orbitals, scale factor, sources *)
Section Targets.
Variable racah : Z -> Z -> Z -> Z -> Z -> Z -> R.
Variable inv_sqrt_4pi : R.
Variable sp : lspace.
Variable b : R.
Variables (radial : Z -> option obfile) (am : bool -> option obfile) (charge : Z -> option obfile).
(** elements of the target between states *)
Inductive ew_elements_of : ewtarget -> qn -> (nat -> nat -> nat -> nat -> R) -> Prop :=
| el_E : forall lambda s file r, radial lambda = Some r -> file_ok r sp (lambda, Z.rem lambda 2, 0)%Z ->
    ew_elements_of (EmTarget ElE lambda s file) (lambda, Z.rem lambda 2, 0)%Z
      (fun I i K k => match nth_error sp I with Some x => species_factor s (fst x) * powerRZ b lambda * file_entry r I i K k | None => 0 end)
| el_M1 : forall ty s file a, ty <> ElE -> am (match ty with ElDs => true | _ => false end) = Some a -> file_ok a sp (1, 0, 0)%Z ->
    ew_elements_of (EmTarget ty 1 s file) (1, 0, 0)%Z
      (fun I i K k => match nth_error sp I with Some x => species_factor s (fst x) * (sqrt 3 * inv_sqrt_4pi) * file_entry a I i K k | None => 0 end)
| el_Ds : forall lambda s file a r, (2 <= lambda)%Z -> am true = Some a -> file_ok a sp (1, 0, 0)%Z ->
    radial (lambda - 1)%Z = Some r -> file_ok r sp (lambda - 1, Z.rem (lambda - 1) 2, 0)%Z ->
    ew_elements_of (EmTarget ElDs lambda s file) (lambda, Z.rem (lambda - 1) 2, 0)%Z
      (fun I i K k => match nth_error sp I with
         | Some x => species_factor s (fst x) * gradient_factor b lambda
             * product_entry racah sp (1, 0, 0)%Z (lambda - 1, Z.rem (lambda - 1) 2, 0)%Z (lambda, Z.rem (lambda - 1) 2, 0)%Z a r I i K k
         | None => 0 end)
(** 2/(lambda+1) is a division of integers *)
| el_Dl : forall lambda s file a r, (2 <= lambda)%Z -> am false = Some a -> file_ok a sp (1, 0, 0)%Z ->
    radial (lambda - 1)%Z = Some r -> file_ok r sp (lambda - 1, Z.rem (lambda - 1) 2, 0)%Z ->
    ew_elements_of (EmTarget ElDl lambda s file) (lambda, Z.rem (lambda - 1) 2, 0)%Z (fun _ _ _ _ => 0)
| el_F : forall file t, charge 1%Z = Some t -> file_ok t sp (0, 0, 1)%Z -> ew_elements_of (WeakTarget false file) (0, 0, 1)%Z (file_entry t)
| el_GT : forall file t a, charge 1%Z = Some t -> file_ok t sp (0, 0, 1)%Z -> am true = Some a -> file_ok a sp (1, 0, 0)%Z ->
    ew_elements_of (WeakTarget true file) (1, 0, 1)%Z (product_entry racah sp (1, 0, 0)%Z (0, 0, 1)%Z (1, 0, 1)%Z a t).
Definition name_of (t : ewtarget) : string := match t with EmTarget _ _ _ f => f | WeakTarget _ f => f end.
Definition ew_output (t : ewtarget) (o : string * obfile) : Prop :=
  fst o = name_of t /\ exists q f, ew_elements_of t q f /\ file_ok (snd o) sp q /\ forall I i K k, state sp I i -> state sp K k -> file_entry (snd o) I i K k = f I i K k.
End Targets.
(** sources of a target, by what they are needed for *)
Inductive needed : Type := NRadial (n : Z) | NAm (spin : bool) | NCharge.
Definition needs (t : ewtarget) : list needed :=
  match t with
  | EmTarget ElE lambda _ _ => [NRadial lambda]
  | EmTarget ElDl lambda _ _ => NAm false :: if Z.eq_dec lambda 1 then [] else [NRadial (lambda - 1)]
  | EmTarget ElDs lambda _ _ => NAm true :: if Z.eq_dec lambda 1 then [] else [NRadial (lambda - 1)]
  | WeakTarget gt _ => NCharge :: if gt then [NAm true] else []
  end.
Definition supplied (d : ewdisk) (sts : list ewstatement) (n : needed) : option obfile :=
  match n with NRadial p => radial_op d sts p | NAm spin => am_op d sts spin | NCharge => charge_op d sts 1%Z end.
(** * the input format in the comment, ew-gen.cpp:9-24 *)
Inductive ewdocumented : list word -> Prop :=
| ewdoc_indexing : forall k f, w_text k = "set-indexing" -> ewdocumented [k; f]
| ewdoc_factor : forall k a x, w_text k = "set-basis-scale-factor" -> w_num a = Some x -> ewdocumented [k; a]
| ewdoc_radial : forall k t a f n, w_text k = "define-radial-source" -> In (w_text t) ["r"; "k"] -> w_int a = Some n -> ewdocumented [k; t; a; f]
| ewdoc_am : forall k t f, w_text k = "define-am-source" -> In (w_text t) ["l"; "s"] -> ewdocumented [k; t; f]
| ewdoc_isospin : forall k t f, w_text k = "define-isospin-source" -> In (w_text t) ["t+"; "t-"; "tz"] -> ewdocumented [k; t; f]
| ewdoc_em : forall k t a s f n, w_text k = "define-em-target" -> In (w_text t) ["E"; "Dl"; "Ds"] -> w_int a = Some n -> In (w_text s) ["p"; "n"; "total"] -> ewdocumented [k; t; a; s; f]
| ewdoc_weak : forall k t f, w_text k = "define-weak-target" -> In (w_text t) ["F"; "GT"] -> ewdocumented [k; t; f].
