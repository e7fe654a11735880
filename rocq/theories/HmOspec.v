(** What the one-body part of the control file of h2mixer defines. *)
From Coq Require Import String List ZArith Reals Bool.
From Verif Require Import Base RMat H2Model MapModel XformModel SepModel OscModel BlockModel BlockSpec ObioModel MixModel ObmModel ObmSpec NatModel RgModel HmModel HmSpec.
Import ListNotations.
Open Scope R_scope.
Open Scope string_scope.

Definition id_of (s : ob_source) : string :=
  match s with OInput id _ _ | OBuiltin id _ | OLinear id _ | OTensor id _ _ _ _ | OXform id _ _ => id end.
(** an operator: space, quantum numbers, elements between states *)
Definition opval : Type := lspace * qn * (nat -> nat -> nat -> nat -> R).
(** orbitals with spin 1/2, labels that occur once, and the same n for the states of the same position *)
Definition regular (sp : lspace) : Prop := orbital_space sp /\ distinct_labels sp /\ distinct_n sp /\ aligned sp.
(** elements given by the labels of the orbitals; none where the quantum numbers do not allow one *)
Definition describes (sp : lspace) (q : qn) (f : nat -> nat -> nat -> nat -> R) (g : llabel -> Z -> llabel -> Z -> R) : Prop :=
  forall I i K k a n b n', orbital_at sp I i a n -> orbital_at sp K k b n' ->
    (allowed q a b -> f I i K k = g a n b n') /\ (~ allowed q a b -> f I i K k = 0).
(** the orbitals of the file, or those of the target *)
Definition builtin_space (d : disk) (tsp : lspace) (file : string) (sp : lspace) : Prop :=
  (file = "" /\ sp = tsp) \/ (file <> "" /\ exists os, d_orbitals d file = Some os /\ sp = forget (mk_wspace os)).

Section Defines.
Variable d : disk.
Variable crme : Z -> Z -> Z -> Z -> Z -> R.
Variable am_rme : am_type -> Z -> Z -> Z -> Z -> R.
Variable racah : Z -> Z -> Z -> Z -> Z -> Z -> R.
Variable tsp : lspace.
(** the transformations by name *)
Variable xs : string -> option obfile.
Definition diagonal (x : llabel -> llabel -> R) : llabel -> Z -> llabel -> Z -> R := fun a n b n' => if (n =? n')%Z then x a b else 0.
Inductive builtin_op : string -> qn -> (llabel -> Z -> llabel -> Z -> R) -> Prop :=
| b_identity : builtin_op "identity" (0, 0, 0)%Z (diagonal (fun _ _ => 1))
| b_vector : forall id t, In (id, t) [("l", AOrbital); ("s", ASpin); ("j", ATotal)] ->
    builtin_op id (1, 0, 0)%Z (diagonal (fun a b => am_rme t (ll_l a) (ll_2j a) (ll_l b) (ll_2j b)))
| b_square : forall id t, In (id, t) [("l2", AOrbital); ("s2", ASpin); ("j2", ATotal)] -> builtin_op id (0, 0, 0)%Z (diagonal (fun a _ => casimir t a))
| b_tz : builtin_op "tz" (0, 0, 0)%Z (diagonal (fun _ b => match ll_sp b with SP => 1 / 2 | SN => - (1 / 2) end))
| b_raise : builtin_op "t+" (0, 0, 1)%Z (diagonal (fun _ _ => 1))
| b_lower : builtin_op "t-" (0, 0, -1)%Z (diagonal (fun _ _ => 1))
| b_ladder : forall id up, In (id, up) [("c+", true); ("c", false)] ->
    builtin_op id (1, 1, 0)%Z (fun a n b n' => crme (ll_l a) (ll_2j a) (ll_l b) (ll_2j b) 1 * ladder_value up n (ll_l a) n' (ll_l b)).
(** the operator a channel defines, given those defined before *)
Inductive defines (env : list (string * opval)) : ob_source -> opval -> Prop :=
| def_input : forall id file q f sp, d_ob d file = Some f -> file_ok f sp q -> defines env (OInput id file q) (sp, q, file_entry f)
| def_builtin : forall id file sp q f g, builtin_space d tsp file sp -> regular sp -> builtin_op id q g -> describes sp q f g ->
    defines env (OBuiltin id file) (sp, q, f)
| def_linear : forall id terms sp q f, terms <> [] -> (forall ic, In ic terms -> assoc env (fst ic) = Some (sp, q, f (fst ic))) ->
    defines env (OLinear id terms) (sp, q, fun I i K k => lsum terms (fun ic => snd ic * f (fst ic) I i K k))
| def_tensor : forall id a b J0 scale sp Ja ga Ta fa Jb gb Tb fb,
    assoc env a = Some (sp, (Ja, ga, Ta), fa) -> assoc env b = Some (sp, (Jb, gb, Tb), fb) -> coupled Ja Jb J0 ->
    defines env (OTensor id a b J0 scale) (sp, (J0, Z.rem (ga + gb) 2, (Ta + Tb)%Z),
      fun I i K k => scale * ssum sp (fun P p => racah (two_j sp I) (two_j sp K) (two_j sp P) Ja Jb J0 * fa I i P p * fb P p K k))
| def_xform : forall id src xf sp q fo x f, assoc env src = Some (sp, q, fo) -> xs xf = Some x ->
    of_bra x = sp -> of_q x = (0, 0, 0)%Z -> op_ok sp (of_ket x) (of_sectors x) (of_blocks x) -> of_sectors x = sectors_of sp (of_ket x) (0, 0, 0)%Z ->
    orbital_space sp -> orbital_space (of_ket x) -> distinct_labels sp ->
    (forall I i K k a n b n', orbital_at (of_ket x) I i a n -> orbital_at (of_ket x) K k b n' ->
      (allowed q a b -> f I i K k = ssum sp (fun A p => ssum sp (fun B r => file_entry x A p I i * fo A p B r * file_entry x B r K k)))
      /\ (~ allowed q a b -> f I i K k = 0)) ->
    defines env (OXform id src xf) (of_ket x, q, f).
(** channels one after the other; a name is used once *)
Inductive stage : list ob_source -> list (string * opval) -> Prop :=
| stage_nil : stage [] []
| stage_snoc : forall ss env s v, stage ss env -> assoc env (id_of s) = None -> defines env s v -> stage (ss ++ [s])%list ((id_of s, v) :: env).
End Defines.
