(** What the control file of obmixer says and defines, independently of the program. *)
From Coq Require Import String List ZArith Reals Bool.
From Verif Require Import Base RMat H2Model MapModel XformModel SepModel OscModel BlockModel BlockSpec ObioModel MixModel ObmModel ObmSpec NatModel RgModel HmModel HmSpec HmOspec StmtSpec ObxModel.
Import ListNotations.
Open Scope R_scope.
Open Scope string_scope.
Open Scope list_scope.

Inductive xstatement : Type :=
| Basis (bt : radial_basis) (file : string)
| Length (b : R)
| Transformation (id file : string)
| Source (s : source)
| Term (id : string) (x : R)
| Target (id file : string).

(** the generated operators: mode, name, type, order, quantum numbers *)
Definition generated_names : list (string * string * (gen_type * Z * qn)) :=
  [("kinematic", "identity", (GRadial TOther, 0, (0, 0, 0))); ("kinematic", "r", (GRadial TR, 1, (1, 1, 0))); ("kinematic", "ik", (GRadial TK, 1, (1, 1, 0)));
   ("kinematic", "r.r", (GRadial TR, 2, (0, 0, 0))); ("kinematic", "ik.ik", (GRadial TK, 2, (0, 0, 0)));
   ("am", "l", (GAm AOrbital, 1, (1, 0, 0))); ("am", "l2", (GAm AOrbital, 2, (0, 0, 0))); ("am", "s", (GAm ASpin, 1, (1, 0, 0)));
   ("am", "s2", (GAm ASpin, 2, (0, 0, 0))); ("am", "j", (GAm ATotal, 1, (1, 0, 0))); ("am", "j2", (GAm ATotal, 2, (0, 0, 0)));
   ("isospin", "tz", (GIso, 1, (0, 0, 0))); ("isospin", "t+", (GIso, 1, (0, 0, 1))); ("isospin", "t-", (GIso, 1, (0, 0, -1)));
   ("ladder", "c+", (GLadder true, 1, (1, 1, 0))); ("ladder", "c", (GLadder false, 1, (1, 1, 0)))]%Z.
(** the words of a line; words that nobody reads may follow *)
Inductive xsays : cline -> xstatement -> Prop :=
| xsay_basis : forall k b f rest bl bt, w_text k = "set-basis" -> In (w_text b, bt) [("oscillator", BOscillator); ("laguerre", BLaguerre)] ->
    xsays (CLine (k :: b :: f :: rest) bl) (Basis bt (w_text f))
| xsay_length : forall k a rest bl x, w_text k = "set-length-parameter" -> w_num a = Some x -> xsays (CLine (k :: a :: rest) bl) (Length x)
| xsay_xform : forall k i f rest bl, w_text k = "define-xform" -> xsays (CLine (k :: i :: f :: rest) bl) (Transformation (w_text i) (w_text f))
| xsay_xform_no_file : forall k i bl, w_text k = "define-xform" -> xsays (CLine [k; i] bl) (Transformation (w_text i) "")
| xsay_xform_nothing : forall k bl, w_text k = "define-xform" -> xsays (CLine [k] bl) (Transformation "" "")
| xsay_generated : forall k m i rest bl t order q file, w_text k = "define-source" -> In (w_text m, w_text i, (t, order, q)) generated_names ->
    optional_text rest bl file -> xsays (CLine (k :: m :: i :: rest) bl) (Source (XGenerated (w_text i) t order q file))
| xsay_solid : forall k m i c a b rest bl t order J0 file, w_text k = "define-source" -> w_text m = "solid-harmonic" ->
    In (w_text c, t) [("r", TR); ("k", TK); ("ik", TK); ("o", TOther); ("g", TOther)] -> w_int a = Some order -> w_int b = Some J0 ->
    optional_text rest bl file ->
    xsays (CLine (k :: m :: i :: c :: a :: b :: rest) bl) (Source (XGenerated (w_text i) (GRadial t) order (J0, Z.rem J0 2, 0%Z) file))
| xsay_input : forall k m i f a b c rest bl J0 g0 Tz0, w_text k = "define-source" -> w_text m = "input" ->
    w_int a = Some J0 -> w_int b = Some g0 -> w_int c = Some Tz0 ->
    xsays (CLine (k :: m :: i :: f :: a :: b :: c :: rest) bl) (Source (XInput (w_text i) (w_text f) (J0, g0, Tz0)))
| xsay_linear : forall k m i rest bl, w_text k = "define-source" -> w_text m = "linear-combination" ->
    xsays (CLine (k :: m :: i :: rest) bl) (Source (XLinear (w_text i) []))
| xsay_tensor : forall k m i a b j rest bl J0 scale, w_text k = "define-source" -> w_text m = "tensor-product" -> w_int j = Some J0 ->
    optional_number rest bl scale -> xsays (CLine (k :: m :: i :: a :: b :: j :: rest) bl) (Source (XTensor (w_text i) (w_text a) (w_text b) J0 scale))
| xsay_xform_source : forall k m i a x rest bl, w_text k = "define-source" -> w_text m = "xform" ->
    xsays (CLine (k :: m :: i :: a :: x :: rest) bl) (Source (XXform (w_text i) (w_text a) (w_text x)))
| xsay_term : forall k i a rest bl x, w_text k = "add-source" -> w_num a = Some x -> xsays (CLine (k :: i :: a :: rest) bl) (Term (w_text i) x)
| xsay_target : forall k i f rest bl, w_text k = "define-target" -> xsays (CLine (k :: i :: f :: rest) bl) (Target (w_text i) (w_text f)).

Definition basis_of (s : xstatement) : option (radial_basis * string) := match s with Basis bt f => Some (bt, f) | _ => None end.
Definition length_of (s : xstatement) : option R := match s with Length b => Some b | _ => None end.
Definition xform_called (id : string) (s : xstatement) : option string :=
  match s with Transformation i f => if String.eqb i id then Some f else None | _ => None end.
Definition source_of (s : xstatement) : option source := match s with Source o => Some o | _ => None end.
Definition term_in (s : xstatement) : option (string * R) := match s with Term i x => Some (i, x) | _ => None end.
Definition target_in (s : xstatement) : option (string * string) := match s with Target i f => Some (i, f) | _ => None end.
Definition summed (p : source * list (string * R)) : source :=
  match fst p with XLinear id terms => XLinear id (terms ++ snd p) | s => s end.
(** the channels of the file *)
Definition sources_of (sts : list xstatement) : list source := map summed (parts source_of term_in sts).
(** the orbitals of a basis exist when its line is read; a term follows a linear combination *)
Definition fits (d : disk) (pre : list xstatement) (s : xstatement) : Prop :=
  match s with
  | Basis _ f => d_orbitals d f <> None
  | Term _ _ => exists id terms, the_last source_of pre = Some (XLinear id terms)
  | _ => True
  end.
Definition well_placed (d : disk) (sts : list xstatement) : Prop := forall pre s post, sts = pre ++ s :: post -> fits d pre s.
(** the basis of the run: that of the last set-basis, wherever it is; by default no orbitals *)
Definition run_basis (sts : list xstatement) : radial_basis := match the_last basis_of sts with Some (bt, _) => bt | None => BOscillator end.
Definition run_space (d : disk) (sts : list xstatement) : lspace :=
  match the_last basis_of sts with
  | Some (_, f) => match d_orbitals d f with Some os => forget (mk_wspace os) | None => [] end
  | None => []
  end.
Definition run_of (d : disk) (sts : list xstatement) : runpar := Run (run_basis sts) (otherwise (the_last length_of sts) 1) (run_space d sts).
Record xmeans (d : disk) (c : xcontrol) (sts : list xstatement) : Prop := XMeans {
  xm_run : xc_run c = run_of d sts;
  xm_xforms : forall id, assoc (xc_xforms c) id = the_first (xform_called id) sts;
  xm_once : NoDup (map fst (xc_xforms c));
  xm_sources : xc_sources c = sources_of sts;
  xm_targets : xc_targets c = every target_in sts }.

(** * operators *)
Definition source_id (s : source) : string :=
  match s with XInput id _ _ | XGenerated id _ _ _ _ | XLinear id _ | XTensor id _ _ _ _ | XXform id _ _ => id end.
(** the orbitals of the file, or those of the run *)
Definition source_space (d : disk) (tsp : lspace) (file : string) (sp : lspace) : Prop :=
  (file = "" /\ sp = tsp) \/ (file <> "" /\ exists os, d_orbitals d file = Some os /\ sp = forget (mk_wspace os)).

Section Defines.
Variable d : disk.
Variable spline : spline_me.
Variable crme : Z -> Z -> Z -> Z -> Z -> R.
Variable am_rme : am_type -> Z -> Z -> Z -> Z -> R.
Variable inv_sqrt_4pi : R.
Variable racah : Z -> Z -> Z -> Z -> Z -> Z -> R.
Variable rp : runpar.
(** the transformations by name *)
Variable xs : string -> option obfile.
(** the factor of a solid harmonic: none for the names of kinematic operators, sqrt((2 order + 1) / 4 pi) for all others *)
Definition solid_factor (id : string) (order : Z) : R :=
  if in_dec string_dec id ["identity"; "r"; "ik"; "r.r"; "ik.ik"] then 1 else sqrt (IZR (2 * order + 1)) * inv_sqrt_4pi.
(** elements <a n | O | b n'> of a generated operator of this name, type, order and quantum numbers on a space *)
Inductive made (sp : lspace) : string -> gen_type -> Z -> qn -> (llabel -> Z -> llabel -> Z -> R) -> Prop :=
| made_identity : forall t order, regular sp -> made sp "identity" t order (0, 0, 0)%Z (diagonal (fun _ _ => 1))
| made_solid : forall id t order J0 g0 Tz0 rad, id <> "identity" ->
    (forall I i K k a n b n', orbital_at sp I i a n -> orbital_at sp K k b n' -> allowed (J0, g0, Tz0) a b ->
       radial_value spline (rn_basis rp) t order J0 g0 n (ll_l a) n' (ll_l b) (rad a n b n')) ->
    made sp id (GRadial t) order (J0, g0, Tz0)
      (fun a n b n' => length_power t order (rn_length rp) * solid_factor id order * rad a n b n' * crme (ll_l a) (ll_2j a) (ll_l b) (ll_2j b) J0)
| made_vector : forall id t, id <> "identity" -> regular sp ->
    made sp id (GAm t) 1 (1, 0, 0)%Z (diagonal (fun a b => am_rme t (ll_l a) (ll_2j a) (ll_l b) (ll_2j b)))
| made_square : forall id t, id <> "identity" -> regular sp -> made sp id (GAm t) 2 (0, 0, 0)%Z (diagonal (fun a _ => casimir t a))
| made_isospin : forall id order Tz0, id <> "identity" -> regular sp ->
    made sp id GIso order (0, 0, Tz0)%Z
      (diagonal (fun _ b => if (Tz0 =? 0)%Z then match ll_sp b with SP => 1 / 2 | SN => - (1 / 2) end else 1))
| made_ladder : forall id up order J0 g0 Tz0, id <> "identity" -> orbital_space sp -> rn_basis rp = BOscillator ->
    made sp id (GLadder up) order (J0, g0, Tz0) (fun a n b n' => crme (ll_l a) (ll_2j a) (ll_l b) (ll_2j b) J0 * ladder_value up n (ll_l a) n' (ll_l b)).
(** the operator a channel defines, given those defined before *)
Inductive xdefines (env : list (string * opval)) : source -> opval -> Prop :=
| xdef_input : forall id file q f sp, d_ob d file = Some f -> file_ok f sp q -> xdefines env (XInput id file q) (sp, q, file_entry f)
| xdef_generated : forall id t order q file sp f g, source_space d (rn_space rp) file sp -> made sp id t order q g -> describes sp q f g ->
    xdefines env (XGenerated id t order q file) (sp, q, f)
| xdef_linear : forall id terms sp q f, terms <> [] -> (forall ic, In ic terms -> assoc env (fst ic) = Some (sp, q, f (fst ic))) ->
    xdefines env (XLinear id terms) (sp, q, fun I i K k => lsum terms (fun ic => snd ic * f (fst ic) I i K k))
| xdef_tensor : forall id a b J0 scale sp Ja ga Ta fa Jb gb Tb fb,
    assoc env a = Some (sp, (Ja, ga, Ta), fa) -> assoc env b = Some (sp, (Jb, gb, Tb), fb) -> coupled Ja Jb J0 ->
    xdefines env (XTensor id a b J0 scale) (sp, (J0, Z.rem (ga + gb) 2, (Ta + Tb)%Z),
      fun I i K k => scale * ssum sp (fun P p => racah (two_j sp I) (two_j sp K) (two_j sp P) Ja Jb J0 * fa I i P p * fb P p K k))
| xdef_xform : forall id src xf sp q fo x f, assoc env src = Some (sp, q, fo) -> xs xf = Some x ->
    of_bra x = sp -> of_q x = (0, 0, 0)%Z -> op_ok sp (of_ket x) (of_sectors x) (of_blocks x) -> of_sectors x = sectors_of sp (of_ket x) (0, 0, 0)%Z ->
    orbital_space sp -> orbital_space (of_ket x) -> distinct_labels sp ->
    (forall I i K k a n b n', orbital_at (of_ket x) I i a n -> orbital_at (of_ket x) K k b n' ->
      (allowed q a b -> f I i K k = ssum sp (fun A p => ssum sp (fun B r => file_entry x A p I i * fo A p B r * file_entry x B r K k)))
      /\ (~ allowed q a b -> f I i K k = 0)) ->
    xdefines env (XXform id src xf) (of_ket x, q, f).
(** channels one after the other; a name is used once *)
Inductive xstage : list source -> list (string * opval) -> Prop :=
| xstage_nil : xstage [] []
| xstage_snoc : forall ss env s v, xstage ss env -> assoc env (source_id s) = None -> xdefines env s v -> xstage (ss ++ [s]) ((source_id s, v) :: env).
End Defines.

(** the transformation of a name *)
Definition xform_file (d : disk) (sts : list xstatement) (id : string) : option obfile :=
  match the_first (xform_called id) sts with Some f => d_ob d f | None => None end.
(** all transformations can be read and are scalars, used or not *)
Definition xforms_good (d : disk) (sts : list xstatement) : Prop :=
  forall id file, the_first (xform_called id) sts = Some file -> exists f, d_ob d file = Some f /\ of_q f = (0, 0, 0)%Z.
(** the file written for an operator: on the space of the run, elements of the orbitals that the operator has, else 0 *)
Definition written (tsp : lspace) (v : opval) (F : obfile) : Prop :=
  let '(sp, q, f) := v in
  file_ok F tsp q
  /\ (forall I i K k A a B b, same_orbital tsp I i sp A a -> same_orbital tsp K k sp B b -> file_entry F I i K k = f A a B b)
  /\ (forall I i K k, state tsp I i -> state tsp K k ->
        (forall A a, ~ same_orbital tsp I i sp A a) \/ (forall B b, ~ same_orbital tsp K k sp B b) -> file_entry F I i K k = 0).
(** the operators of the targets exist, on spaces in which an orbital occurs once *)
Definition target_fine (env : list (string * opval)) (id : string) : Prop :=
  exists sp q f, assoc env id = Some (sp, q, f) /\ orbital_space sp /\ distinct_labels sp /\ distinct_n sp.
(** a file for each target, in the order of the targets *)
Definition output_of (tsp : lspace) (env : list (string * opval)) (t : string * string) (o : string * obfile) : Prop :=
  fst o = snd t /\ exists v, assoc env (fst t) = Some v /\ written tsp v (snd o).
(** the name of a channel is taken, or what it needs is not there *)
Definition lacking (d : disk) (xs : string -> option obfile) (env : list (string * opval)) (s : source) : Prop :=
  assoc env (source_id s) <> None \/
  match s with
  | XInput _ file _ => d_ob d file = None
  | XGenerated _ _ _ _ file => file <> "" /\ d_orbitals d file = None
  | XLinear id ((i, _) :: _) => i <> id /\ assoc env i = None
  | XLinear _ [] => False
  | XTensor id a b _ _ => (a <> id /\ assoc env a = None) \/ (b <> id /\ assoc env b = None)
  | XXform _ src xf => assoc env src = None \/ xs xf = None
  end.

(** * the format described in the header comment of the program (obmixer.cpp:13-35) *)
Definition documented_names : list (string * string) :=
  [("kinematic", "identity"); ("kinematic", "r"); ("kinematic", "k"); ("kinematic", "r.r"); ("kinematic", "k.k");
   ("am", "l"); ("am", "l2"); ("am", "s"); ("am", "s2"); ("am", "j"); ("am", "j2"); ("isospin", "tz"); ("isospin", "t+"); ("isospin", "t-");
   ("ladder", "c+"); ("ladder", "c")].
Inductive documented : list word -> Prop :=
| doc_basis : forall k b f, w_text k = "set-basis" -> In (w_text b) ["oscillator"; "laguerre"] -> documented [k; b; f]
| doc_length : forall k a x, w_text k = "set-length-parameter" -> w_num a = Some x -> documented [k; a]
| doc_xform : forall k i f, w_text k = "define-xform" -> documented [k; i; f]
| doc_generated : forall k m i rest, w_text k = "define-source" -> In (w_text m, w_text i) documented_names -> (length rest <= 1)%nat -> documented (k :: m :: i :: rest)
| doc_solid : forall k m i c a order rest, w_text k = "define-source" -> w_text m = "solid-harmonic" -> In (w_text c) ["r"; "ik"] -> w_int a = Some order ->
    (length rest <= 1)%nat -> documented (k :: m :: i :: c :: a :: rest)
| doc_input : forall k m i f a b c J0 g0 Tz0, w_text k = "define-source" -> w_text m = "input" -> w_int a = Some J0 -> w_int b = Some g0 -> w_int c = Some Tz0 ->
    documented [k; m; i; f; a; b; c]
| doc_linear : forall k m i, w_text k = "define-source" -> w_text m = "linear-combination" -> documented [k; m; i]
| doc_add : forall k i a x, w_text k = "add-source" -> w_num a = Some x -> documented [k; i; a]
| doc_tensor : forall k m i a b j J0, w_text k = "define-source" -> w_text m = "tensor-product" -> w_int j = Some J0 -> documented [k; m; i; a; b; j]
| doc_tensor_scale : forall k m i a b j s J0 x, w_text k = "define-source" -> w_text m = "tensor-product" -> w_int j = Some J0 -> w_num s = Some x -> documented [k; m; i; a; b; j; s]
| doc_xform_source : forall k m i a x, w_text k = "define-source" -> w_text m = "xform" -> documented [k; m; i; a; x]
| doc_target : forall k i f, w_text k = "define-target" -> documented [k; i; f].
(** momentum operators and solid harmonics *)
Definition momentum (ws : list word) : Prop := exists k m i rest, ws = k :: m :: i :: rest /\ w_text k = "define-source" /\ In (w_text m, w_text i) [("kinematic", "k"); ("kinematic", "k.k")].
Definition solid (ws : list word) : Prop := exists k m rest, ws = k :: m :: rest /\ w_text k = "define-source" /\ w_text m = "solid-harmonic".
