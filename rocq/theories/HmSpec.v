(** What the control file of h2mixer says, independently of the reader. *)
From Coq Require Import String List ZArith Reals Bool.
From Verif Require Import Base RMat H2Model MapModel XformModel SepModel OscModel BlockModel ObioModel MixModel ObmModel NatModel RgModel HmModel.
Import ListNotations.
Open Scope string_scope.
Open Scope list_scope.

Inductive statement : Type :=
| Indexing (file : string) (w : weights)
| Oscillator (tb : bool) (N : Z)
| Multipolarity (q : qn)
| Mass (A : Z)
| Format (f : Z)
| DefXform (id file : string)
| DefOb (s : ob_source)
| AddOb (id : string) (x : R)
| DefTb (s : tb_source)
| DefTarget (file : string)
| Add (id : string) (x : R).

Definition builtin_names : list string :=
  ["identity"; "l"; "l2"; "s"; "s2"; "j"; "j2"; "tz"; "t+"; "t-"; "c+"; "c"].
(** an argument that may be left out, but then nothing at all may follow *)
Inductive optional_text : list word -> bool -> string -> Prop :=
| no_text : optional_text [] false ""
| a_text : forall w rest b, optional_text (w :: rest) b (w_text w).
Inductive optional_number : list word -> bool -> R -> Prop :=
| no_number : optional_number [] false 1%R
| a_number : forall w rest b x, w_num w = Some x -> optional_number (w :: rest) b x.
(** the words of a line; words that nobody reads may follow *)
Inductive says : cline -> statement -> Prop :=
| say_indexing : forall k f a b c d e rest bl p n pp nn pn, w_text k = "set-target-indexing" ->
    w_num a = Some p -> w_num b = Some n -> w_num c = Some pp -> w_num d = Some nn -> w_num e = Some pn ->
    says (CLine (k :: f :: a :: b :: c :: d :: e :: rest) bl) (Indexing (w_text f) (WMax p n pp nn pn))
| say_oscillator : forall k r n rest bl (tb : bool) N, w_text k = "set-target-indexing-oscillator" ->
    w_text r = (if tb then "tb" else "ob") -> w_int n = Some N -> says (CLine (k :: r :: n :: rest) bl) (Oscillator tb N)
| say_multipolarity : forall k a b c rest bl J0 g0 Tz0, w_text k = "set-target-multipolarity" ->
    w_int a = Some J0 -> w_int b = Some g0 -> w_int c = Some Tz0 -> says (CLine (k :: a :: b :: c :: rest) bl) (Multipolarity (J0, g0, Tz0))
| say_mass : forall k a rest bl A, w_text k = "set-mass" -> w_int a = Some A -> says (CLine (k :: a :: rest) bl) (Mass A)
| say_format : forall k a rest bl f, w_text k = "set-output-format" -> w_int a = Some f -> says (CLine (k :: a :: rest) bl) (Format f)
| say_xform : forall k i f rest bl, w_text k = "define-xform" -> says (CLine (k :: i :: f :: rest) bl) (DefXform (w_text i) (w_text f))
| say_xform_no_file : forall k i bl, w_text k = "define-xform" -> says (CLine [k; i] bl) (DefXform (w_text i) "")
| say_xform_nothing : forall k bl, w_text k = "define-xform" -> says (CLine [k] bl) (DefXform "" "")
| say_ob_input : forall k s i f a b c rest bl J0 g0 Tz0, w_text k = "define-ob-source" -> w_text s = "input" ->
    w_int a = Some J0 -> w_int b = Some g0 -> w_int c = Some Tz0 ->
    says (CLine (k :: s :: i :: f :: a :: b :: c :: rest) bl) (DefOb (OInput (w_text i) (w_text f) (J0, g0, Tz0)))
| say_ob_builtin : forall k s i rest bl file, w_text k = "define-ob-source" -> w_text s = "builtin" -> In (w_text i) builtin_names ->
    optional_text rest bl file -> says (CLine (k :: s :: i :: rest) bl) (DefOb (OBuiltin (w_text i) file))
| say_ob_linear : forall k s i rest bl, w_text k = "define-ob-source" -> w_text s = "linear-combination" ->
    says (CLine (k :: s :: i :: rest) bl) (DefOb (OLinear (w_text i) []))
| say_ob_tensor : forall k s i a b j rest bl J0 scale, w_text k = "define-ob-source" -> w_text s = "tensor-product" -> w_int j = Some J0 ->
    optional_number rest bl scale -> says (CLine (k :: s :: i :: a :: b :: j :: rest) bl) (DefOb (OTensor (w_text i) (w_text a) (w_text b) J0 scale))
| say_ob_xform : forall k s i a x rest bl, w_text k = "define-ob-source" -> w_text s = "xform" ->
    says (CLine (k :: s :: i :: a :: x :: rest) bl) (DefOb (OXform (w_text i) (w_text a) (w_text x)))
| say_ob_add : forall k i a rest bl x, w_text k = "add-ob-source" -> w_num a = Some x -> says (CLine (k :: i :: a :: rest) bl) (AddOb (w_text i) x)
| say_tb_input : forall k s i f rest bl, w_text k = "define-tb-source" -> w_text s = "input" ->
    says (CLine (k :: s :: i :: f :: rest) bl) (DefTb (TInput (w_text i) (w_text f)))
| say_tb_builtin : forall k s i rest bl, w_text k = "define-tb-source" -> w_text s = "builtin" -> In (w_text i) ["identity"; "loop-test"] ->
    says (CLine (k :: s :: i :: rest) bl) (DefTb (TBuiltin (w_text i)))
| say_tb_U : forall k s i a rest bl, w_text k = "define-tb-source" -> w_text s = "operatorU" ->
    says (CLine (k :: s :: i :: a :: rest) bl) (DefTb (TOperatorU (w_text i) (w_text a)))
| say_tb_V : forall k s i a b rest bl scale, w_text k = "define-tb-source" -> w_text s = "operatorV" -> optional_number rest bl scale ->
    says (CLine (k :: s :: i :: a :: b :: rest) bl) (DefTb (TOperatorV (w_text i) (w_text a) (w_text b) scale))
| say_tb_xform : forall k s i f a b c d e x rest bl p n pp nn pn, w_text k = "define-tb-source" -> w_text s = "xform" ->
    w_num a = Some p -> w_num b = Some n -> w_num c = Some pp -> w_num d = Some nn -> w_num e = Some pn ->
    says (CLine (k :: s :: i :: f :: a :: b :: c :: d :: e :: x :: rest) bl) (DefTb (TXform (w_text i) (w_text f) (WMax p n pp nn pn) (w_text x)))
| say_target : forall k f rest bl, w_text k = "define-target" -> says (CLine (k :: f :: rest) bl) (DefTarget (w_text f))
| say_add : forall k i a rest bl x, w_text k = "add-source" -> w_num a = Some x -> says (CLine (k :: i :: a :: rest) bl) (Add (w_text i) x).

(** the keyword of a line *)
Definition keyword (line : cline) (k : string) : Prop := exists w l, cl_words line = w :: l /\ w_text w = k.

(** the first and the last statement of a kind *)
Fixpoint first_of {A} (f : statement -> option A) (l : list statement) : option A :=
  match l with [] => None | s :: l' => match f s with Some x => Some x | None => first_of f l' end end.
Definition last_of {A} (f : statement -> option A) (l : list statement) : option A := first_of f (rev l).
Definition or_else {A} (o : option A) (x : A) : A := match o with Some y => y | None => x end.
Definition cutoff_of (s : statement) : option Z := match s with Oscillator _ N => Some N | _ => None end.
Definition orbitals_of (s : statement) : option string := match s with Indexing f _ => Some f | _ => None end.
(** one-body truncation to N quanta, two-body to N or 2N *)
Definition weights_of (s : statement) : option weights :=
  match s with
  | Indexing _ w => Some w
  | Oscillator true N => Some (WMax (IZR N) (IZR N) (IZR N) (IZR N) (IZR N))
  | Oscillator false N => Some (WMax (IZR N) (IZR N) (IZR (2 * N)) (IZR (2 * N)) (IZR (2 * N)))
  | _ => None
  end.
Definition q_of_statement (s : statement) : option qn := match s with Multipolarity q => Some q | _ => None end.
Definition mass_of (s : statement) : option Z := match s with Mass A => Some A | _ => None end.
Definition format_of (s : statement) : option Z := match s with Format f => Some f | _ => None end.
Definition xform_named (id : string) (s : statement) : option string :=
  match s with DefXform i f => if String.eqb i id then Some f else None | _ => None end.
Definition ob_of (s : statement) : option ob_source := match s with DefOb o => Some o | _ => None end.
Definition tb_of (s : statement) : option tb_source := match s with DefTb o => Some o | _ => None end.
Definition target_of (s : statement) : option string := match s with DefTarget f => Some f | _ => None end.
Definition ob_term_of (s : statement) : option (string * R) := match s with AddOb i x => Some (i, x) | _ => None end.
Definition term_of (s : statement) : option (string * R) := match s with Add i x => Some (i, x) | _ => None end.
Definition all_of {A} (f : statement -> option A) (l : list statement) : list A :=
  flat_map (fun s => match f s with Some x => [x] | None => [] end) l.
(** the statements up to the next one that starts something *)
Fixpoint before {A} (start : statement -> option A) (l : list statement) : list statement :=
  match l with [] => [] | s :: l' => match start s with Some _ => [] | None => s :: before start l' end end.
(** everything that is started, with the items that follow it before the next start *)
Fixpoint sections {A B} (start : statement -> option A) (item : statement -> option B) (l : list statement) : list (A * list B) :=
  match l with
  | [] => []
  | s :: l' => match start s with
               | Some a => (a, all_of item (before start l')) :: sections start item l'
               | None => sections start item l'
               end
  end.
Definition with_terms (p : ob_source * list (string * R)) : ob_source :=
  match fst p with OLinear id terms => OLinear id (terms ++ snd p) | s => s end.

(** terms follow a linear combination, or a target *)
Definition placed (sts : list statement) : Prop := forall pre s post, sts = pre ++ s :: post ->
  match s with
  | AddOb _ _ => exists id terms, last_of ob_of pre = Some (OLinear id terms)
  | Add _ _ => exists f, In (DefTarget f) pre
  | _ => True
  end.
Record means (c : control) (sts : list statement) : Prop := Means {
  m_cutoff : c_cutoff c = or_else (last_of cutoff_of sts) (-1)%Z;
  m_orbitals : c_orbitals c = or_else (last_of orbitals_of sts) "";
  m_weights : c_weights c = last_of weights_of sts;
  m_q : c_q c = or_else (last_of q_of_statement sts) (0, 0, 0)%Z;
  m_mass : c_mass c = last_of mass_of sts;
  m_format : c_format c = or_else (last_of format_of sts) 0%Z;
  m_xforms : forall id, assoc (c_xforms c) id = first_of (xform_named id) sts;
  m_once : NoDup (map fst (c_xforms c));
  m_ob : c_ob c = map with_terms (sections ob_of ob_term_of sts);
  m_tb : c_tb c = all_of tb_of sts;
  m_targets : c_targets c = sections target_of term_of sts }.
