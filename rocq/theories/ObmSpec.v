(** Vocabulary for C82-C87: one-body operators made by obme.cpp, obmixer and ew-gen. *)
From Coq Require Import String List ZArith Reals Bool.
From Verif Require Import Base RMat H2Model MapModel OscModel BlockModel BlockSpec ObioModel MixModel ObmModel.
Import ListNotations.
Open Scope R_scope.

(** twice the angular momentum j of a subspace *)
Definition two_j (sp : lspace) (I : nat) : Z := match nth_error sp I with Some x => ll_2j (fst x) | None => 0%Z end.
(** an operator on a space: its blocks and the sectors between subspaces that its quantum numbers allow *)
Definition tensor_op (sp : lspace) (q : qn) (s : lsectors) (m : blocks R) : Prop :=
  op_ok sp sp s m /\ s = sectors_of sp sp q.
(** the ranks a, b, c can be coupled *)
Definition coupled (a b c : Z) : Prop := (Z.abs (a - b) <= c <= a + b)%Z.
(** tensor rank, parity and charge of a product *)
Definition product_qn (qa qb q : qn) : Prop :=
  let '(Ja, ga, Ta) := qa in let '(Jb, gb, Tb) := qb in let '(J, g, T) := q in
  coupled Ja Jb J /\ Z.Even (ga + gb + g) /\ (Ta + Tb = T)%Z.
Definition rank (q : qn) : Z := fst (fst q).
(** a space in which states of a subspace have different n *)
Definition distinct_n (sp : lspace) : Prop := Forall (fun x => NoDup (snd x)) sp.
(** state i of any subspace has the same n: the radial quantum numbers of two subspaces agree as far as both go *)
Definition aligned (sp : lspace) : Prop := forall I K i n n', n_of sp I i n -> n_of sp K i n' -> n = n'.
(** the other species *)
Definition flip (l : llabel) : llabel := LL (match ll_sp l with SP => SN | SN => SP end) (ll_l l) (ll_2j l).
(** every orbital exists for both species *)
Definition charge_symmetric (sp : lspace) : Prop := forall l ns, In (l, ns) sp -> In (flip l, ns) sp.
(** a state of another space with the same quantum numbers *)
Definition same_orbital (sp : lspace) (I i : nat) (sp' : lspace) (I' i' : nat) : Prop :=
  exists x y n, nth_error sp I = Some x /\ nth_error sp' I' = Some y /\ fst x = fst y /\ nth_error (snd x) i = Some n /\ nth_error (snd y) i' = Some n.
(** the radial element <bn bl | r^order or (ik)^order | kn kl> in this basis *)
Definition radial_value (spline : spline_me) (bt : radial_basis) (t : radial_type) (order J0 g0 bn bl kn kl : Z) (x : R) : Prop :=
  radial_element spline bt (is_TK t) order J0 g0 bn bl kn kl = Ok (Num x).
(** the length parameter to the power of the operator *)
Definition length_power (t : radial_type) (order : Z) (b : R) : R :=
  match t with TR => powerRZ b order | TK => powerRZ b (- order) | TOther => 1 end.
(** an operator of the map *)
Definition holds (ops : opmap) (id : string) (sp : lspace) (q : qn) (f : nat -> nat -> nat -> nat -> R) : Prop :=
  exists s m, assoc ops id = Some (data_of sp q s m) /\ tensor_op sp q s m
  /\ forall I i K k, state sp I i -> state sp K k -> entry s m I i K k = f I i K k.
(** state i of subspace I is the orbital with these labels and this n *)
Definition orbital_at (sp : lspace) (I i : nat) (a : llabel) (n : Z) : Prop :=
  exists ns, nth_error sp I = Some (a, ns) /\ nth_error ns i = Some n.
(** an operator of rank J0, parity g0 and charge Tz0 can connect subspaces with these labels *)
Definition allowed (q : qn) (a b : llabel) : Prop :=
  let '(J0, g0, Tz0) := q in
  coupled (ll_2j b) (2 * J0) (ll_2j a) /\ Z.Even (ll_l a + g0 + ll_l b) /\ (two_tz b + 2 * Tz0 = two_tz a)%Z.
(** elements <a n | O | b n'> of an operator *)
Definition elements (sp : lspace) (q : qn) (s : lsectors) (m : blocks R) (f : llabel -> Z -> llabel -> Z -> R) : Prop :=
  forall I i K k a n b n', orbital_at sp I i a n -> orbital_at sp K k b n' ->
    (allowed q a b -> entry s m I i K k = f a n b n') /\ (~ allowed q a b -> entry s m I i K k = 0).
(** the number l(l+1), s(s+1) or j(j+1) *)
Definition casimir (t : am_type) (a : llabel) : R :=
  let x := match t with AOrbital => IZR (ll_l a) | ASpin => 1 / 2 | ATotal => IZR (ll_2j a) / 2 end in x * (x + 1).
(** the factor for the species of a target; None is the total operator *)
Definition species_factor (t : option ospecies) (a : llabel) : R :=
  match t, ll_sp a with None, _ | Some SP, SP | Some SN, SN => 1 | _, _ => 0 end.
(** an operator file on a space *)
Definition file_ok (f : obfile) (sp : lspace) (q : qn) : Prop :=
  of_bra f = sp /\ of_ket f = sp /\ of_q f = q /\ tensor_op sp q (of_sectors f) (of_blocks f).
Definition file_entry (f : obfile) : nat -> nat -> nat -> nat -> R := entry (of_sectors f) (of_blocks f).
(** the factors of the gradient of a solid harmonic: sqrt(lambda) sqrt(2 lambda + 1) b^(lambda-1), and 2/(lambda+1) for l *)
Definition gradient_factor (b0 : R) (lambda : Z) : R := powerRZ b0 (lambda - 1) * (sqrt (IZR (2 * lambda + 1)) * sqrt (IZR lambda)).
Definition orbital_factor (lambda : Z) : R := 2 / IZR (lambda + 1).
(** element of the coupled product of two operators: sum over intermediate states with the recoupling factor *)
Definition product_entry (racah : Z -> Z -> Z -> Z -> Z -> Z -> R) (sp : lspace) (qa qb q : qn) (fa fb : obfile) (I i K k : nat) : R :=
  ssum sp (fun P p => racah (two_j sp I) (two_j sp K) (two_j sp P) (rank qa) (rank qb) (rank q) * file_entry fa I i P p * file_entry fb P p K k).
(** the reduced radial element of c+ between oscillator orbitals n' l' and n l: N = 2n+l grows by one, and l by one or falls by one *)
Definition raise_value (n l n' l' : Z) : R :=
  let N' := (2 * n' + l')%Z in
  if (2 * n + l =? N' + 1)%Z then
    if (l =? l' + 1)%Z then sqrt (IZR (N' + l' + 3)) else if (l =? l' - 1)%Z then - sqrt (IZR (N' - l' + 2)) else 0
  else 0.
Definition ladder_value (up : bool) (n l n' l' : Z) : R := if up then raise_value n l n' l' else raise_value n' l' n l.
(** the space of a channel: that of the orbital file, if one is given *)
Definition channel_space (rp : runpar) (space : option lspace) : lspace := match space with Some sp => sp | None => rn_space rp end.
