(** Isospin coupling, independently of the tables of the code. *)
From Coq Require Import List ZArith Reals Bool.
From Verif Require Import Base RMat OscModel BlockModel JpvModel JpvSpec IsoModel.
Import ListNotations.
Open Scope Z_scope.

(** Clebsch-Gordan coefficient (j1 m1 j2 m2 | j m) of integer angular momenta, by Racah's formula *)
Definition zfac (n : Z) : R := IZR (Z.of_nat (fact (Z.to_nat n))).
Definition racah_term (j1 m1 j2 m2 j k : Z) : R :=
  if forallb (fun n => 0 <=? n) [k; j1 + j2 - j - k; j1 - m1 - k; j2 + m2 - k; j - j2 + m1 + k; j - j1 - m2 + k]
  then ((if Z.even k then 1 else -1) / (zfac k * zfac (j1 + j2 - j - k) * zfac (j1 - m1 - k) * zfac (j2 + m2 - k) * zfac (j - j2 + m1 + k) * zfac (j - j1 - m2 + k)))%R
  else 0%R.
Definition cg (j1 m1 j2 m2 j m : Z) : R :=
  if (m1 + m2 =? m) && (Z.abs (j1 - j2) <=? j) && (j <=? j1 + j2) && (Z.abs m1 <=? j1) && (Z.abs m2 <=? j2) && (Z.abs m <=? j) then
    (sqrt (IZR (2 * j + 1) * zfac (j + j1 - j2) * zfac (j - j1 + j2) * zfac (j1 + j2 - j) / zfac (j1 + j2 + j + 1)
           * (zfac (j + m) * zfac (j - m) * zfac (j1 - m1) * zfac (j1 + m1) * zfac (j2 - m2) * zfac (j2 + m2)))
     * lsum (zrange 0 (j1 + j2)) (racah_term j1 m1 j2 m2 j))%R
  else 0%R.
(** norm of the T component of a pair of species: a proton-neutron pair is half T=0 and half T=1 *)
Definition pair_norm (Tz : Z) : R := if Tz =? 0 then sqrt (1 / 2) else 1%R.

(** reduced matrix elements of a two-body operator between pairs of orbitals coupled to (J,T,g), orbitals in any order *)
Definition tlabels : Type := Z * Z * Z.
Definition rme : Type := Z -> tlabels -> orb -> orb -> tlabels -> orb -> orb -> R.
(** exchange of the orbitals of a pair: phase (-1)^(j1+j2+J+T) *)
Definition exchange (l : tlabels) (a b : orb) : R := let '(J, T, _) := l in if Z.even ((snd a + snd b) / 2 + J + T) then 1%R else (-1)%R.
Definition antisymmetric (F : rme) : Prop :=
  (forall T0 l a b l' c d, F T0 l b a l' c d = exchange l a b * F T0 l a b l' c d)%R /\
  (forall T0 l a b l' c d, F T0 l a b l' d c = exchange l' c d * F T0 l a b l' c d)%R.
Definition tl (x : tsub) : tlabels := (t_J x, t_T x, t_g x).
(** the operator stored: upper triangle of [F], for T0 in the range and isospins which can couple, between the labels (Jb,gb) and (Jk,gk) *)
Definition stores (T0_min T0_max Jb gb Jk gk : Z) (sp : tspace) (c : components) (F : rme) : Prop :=
  forall T0 i k x y, T0_min <= T0 <= T0_max -> (i <= k)%nat -> nth_error sp i = Some x -> nth_error sp k = Some y ->
  (t_J x = Jb /\ t_g x = gb /\ t_J y = Jk /\ t_g y = gk) \/ (t_J x = Jk /\ t_g x = gk /\ t_J y = Jb /\ t_g y = gb) ->
  Z.abs (t_T x - t_T y) <= T0 <= t_T x + t_T y ->
  exists sectors ms q m, nth_error c (Z.to_nat T0) = Some (sectors, ms) /\ NoDup sectors /\ nth_error sectors q = Some (i, k) /\ nth_error ms q = Some m
  /\ rows m = length (t_states x) /\ cols m = length (t_states y)
  /\ forall u v a b, nth_error (t_states x) u = Some a -> nth_error (t_states y) v = Some b -> ((i < k)%nat \/ (u <= v)%nat) ->
     at_ m u v = F T0 (tl x) (fst a) (snd a) (tl y) (fst b) (snd b).
(** exchange of bra and ket; [f] are the factors between subspaces *)
Definition hermitian (f : Z -> nat -> nat -> R) (sp : tspace) (F : rme) : Prop :=
  (forall T0 i k x y a b c d, nth_error sp i = Some x -> nth_error sp k = Some y -> (k < i)%nat -> F T0 (tl x) a b (tl y) c d = f T0 i k * F T0 (tl y) c d (tl x) a b)%R
  /\ (forall T0 l a b c d, F T0 l a b l c d = F T0 l c d l a b).
(** no matrix elements outside the space *)
Definition within (sp : tspace) (F : rme) : Prop := forall T0 l a b l' c d, F T0 l a b l' c d <> 0%R -> In l (map tl sp) /\ In l' (map tl sp).
Definition tspace_ok (sp : tspace) : Prop := NoDup (map tl sp) /\ forall x, In x sp -> NoDup (t_states x).
(** the states of a jjJpn subspace exist in the jjJT subspaces: in the order of the orbital indices, unless forbidden for like orbitals *)
Definition states_ok (sp : tspace) (q : psub) : Prop :=
  0 <= q_J q /\ Z.abs (q_Tz q) <= 1 /\
  forall s, In s (q_states q) -> 0 <= snd (p_o1 s) /\ 0 <= snd (p_o2 s) /\ (p_i1 s = p_i2 s -> p_o1 s = p_o2 s /\ Z.odd (snd (p_o1 s)) = true)
  /\ forall x, In x sp -> t_J x = q_J q -> t_g x = q_g q -> (p_i1 s = p_i2 s -> Z.odd (t_J x + t_T x) = true) ->
     In (if Nat.leb (p_i1 s) (p_i2 s) then (p_o1 s, p_o2 s) else (p_o2 s, p_o1 s)) (t_states x).
(** proton-neutron matrix element by the Wigner-Eckart theorem in isospin *)
Definition wigner_eckart (T0_min T0_max : Z) (F : rme) (bra ket : psub) (b k : pstate) : R :=
  lsum (zrange T0_min T0_max) (fun T0 => lsum [0; 1]%Z (fun Tb => lsum [0; 1]%Z (fun Tk =>
    pair_norm (q_Tz bra) * pair_norm (q_Tz ket) * cg Tk (q_Tz ket) T0 (q_Tz bra - q_Tz ket) Tb (q_Tz bra)
    * F T0 (q_J bra, Tb, q_g bra) (p_o1 b) (p_o2 b) (q_J ket, Tk, q_g ket) (p_o1 k) (p_o2 k))))%R.

(** * Isospin components of a relative operator *)
Definition cent (c : components) (T0 q x y : nat) : R := match nth_error c T0 with Some (_, ms) => entry_of ms q x y | None => 0%R end.
(** the components have the sectors [ss], and blocks of their dimensions *)
Definition comps_ok (sp : rspace) (ss : list lsectors) (c : components) : Prop :=
  Forall2 (fun s p => fst p = s /\ rblocks_ok sp s (snd p)) ss c.
(** sectors of the three components: no sector twice, and the T=1 to T=1 sectors of the first are in the others *)
Definition rsectors_ok (sp : rspace) (ss : list lsectors) : Prop :=
  length ss = 3%nat /\ Forall (fun s : lsectors => NoDup s) ss /\
  (forall s0 b k xb xk s, nth_error ss 0 = Some s0 -> In (b, k) s0 -> nth_error sp b = Some xb -> nth_error sp k = Some xk -> r_T xb = 1 -> r_T xk = 1 -> In s ss -> In (b, k) s)
  /\ (forall s b k, In s ss -> In (b, k) s -> (b < length sp)%nat /\ (k < length sp)%nat).
Definition zero_comps (sp : rspace) (ss : list lsectors) (c : components) : Prop :=
  forall T0 s q x y, nth_error ss T0 = Some s -> in_sector sp s q x y -> cent c T0 q x y = 0%R.
(** pp, nn, pn *)
Definition species_Tz (i : nat) : Z := match i with 0%nat => 1 | 1%nat => -1 | _ => 0 end.
(** Nmax labels in accordance with the dimensions *)
Definition nmax_ok (Nmax : nat -> Z) (sp : rspace) : Prop := forall k x, nth_error sp k = Some x -> (Nmax k - r_L x) / 2 = Z.of_nat (r_dim x) - 1 /\ 0 <= Nmax k - r_L x.
(** proton-proton (Tz=1), neutron-neutron (-1) or proton-neutron (0) matrix element of T=1 states, from the reduced matrix elements of the components *)
Definition branched (Tz : Z) (e0 e1 e2 : R) : R := (cg 1 Tz 0 0 1 Tz * e0 + cg 1 Tz 1 0 1 Tz * e1 + cg 1 Tz 2 0 1 Tz * e2)%R.
