(** Vocabulary for C89-C93: operators in the relative, relative-cm, two-body LSJT and jjJT schemes, independently of how they are
    computed. *)
From Coq Require Import List ZArith Reals Bool Lia.
From Verif Require Import Base RMat OscModel BlockModel JpvModel TrfModel JpvSpec.
Import ListNotations.
Open Scope Z_scope.

Definition couples (a b c : Z) : Prop := Z.abs (a - b) <= c <= a + b.
Definition couplesb (a b c : Z) : bool := (Z.abs (a - b) <=? c) && (c <=? a + b).
(** selection rules of an operator *)
Definition jt_rule (J0 T0 g0 J T g J' T' g' : Z) : Prop := couples J J0 J' /\ couples T T0 T' /\ Z.even (g + g0 + g') = true.
Definition in_range (o : oplab) (T0 : Z) : Prop := o_T0_min o <= T0 <= o_T0_max o.

(** * Storage *)
(** an operator is stored by the sectors of its upper triangle, every block complete; [G] are its matrix elements *)
Definition stores {A B} (J T g : A -> Z) (sp : list (A * list B)) (o : oplab) (c : components) (G : Z -> A -> B -> A -> B -> R) : Prop :=
  forall T0, in_range o T0 -> exists sectors ms, nth_error c (Z.to_nat T0) = Some (sectors, ms) /\ NoDup sectors
  /\ (forall i k, In (i, k) sectors <-> (i <= k)%nat /\ exists x y, nth_error sp i = Some x /\ nth_error sp k = Some y
        /\ jt_rule (o_J0 o) T0 (o_g0 o) (J (fst x)) (T (fst x)) (g (fst x)) (J (fst y)) (T (fst y)) (g (fst y)))
  /\ (forall q i k x y, nth_error sectors q = Some (i, k) -> nth_error sp i = Some x -> nth_error sp k = Some y ->
        exists m, nth_error ms q = Some m /\ rows m = length (snd x) /\ cols m = length (snd y)
        /\ forall u v a b, nth_error (snd x) u = Some a -> nth_error (snd y) v = Some b -> at_ m u v = G T0 (fst x) a (fst y) b).
Definition stores_ls := stores (B := four) b_J b_T b_g.
Definition stores_jj := stores (B := orb3 * orb3) a_J a_T a_g.
(** relative labels L, S, J, T *)
Definition rlab : Type := Z * Z * Z * Z.
Definition rl (x : rsub) : rlab := (r_L x, r_S x, r_J x, r_T x).
Definition rl_J (x : rlab) : Z := let '(_, _, J, _) := x in J.
Definition rl_T (x : rlab) : Z := let '(_, _, _, T) := x in T.
(** a relative operator is stored by its upper triangle; [F T0 x N y M] are its matrix elements *)
Definition stores_rel (rs : relspace) (o : oplab) (c : components) (F : Z -> rlab -> Z -> rlab -> Z -> R) : Prop :=
  forall T0, in_range o T0 -> exists sectors ms, nth_error c (Z.to_nat T0) = Some (sectors, ms) /\ NoDup sectors
  /\ forall i k x y, (i <= k)%nat -> nth_error (rel_subs rs) i = Some x -> nth_error (rel_subs rs) k = Some y ->
     jt_rule (o_J0 o) T0 (o_g0 o) (r_J x) (r_T x) (r_g x) (r_J y) (r_T y) (r_g y) ->
     exists q m, nth_error sectors q = Some (i, k) /\ nth_error ms q = Some m /\ rows m = r_dim x /\ cols m = r_dim y
     /\ forall u v, (u < r_dim x)%nat -> (v < r_dim y)%nat -> (i < k)%nat \/ (u <= v)%nat ->
        at_ m u v = F T0 (rl x) (r_L x + 2 * Z.of_nat u) (rl y) (r_L y + 2 * Z.of_nat v).
(** the space has all subspaces up to Nmax and Jmax allowed by antisymmetry *)
Definition rel_complete (rs : relspace) : Prop :=
  rspace_ok (rel_subs rs) /\
  forall L S J T, 0 <= L <= rel_Nmax rs -> 0 <= S <= 1 -> couples L S J -> J <= rel_Jmax rs -> 0 <= T <= 1 -> Z.odd (L + S + T) = true ->
  exists x, In x (rel_subs rs) /\ labels_of x = (L, S, J, T, L mod 2) /\ Z.of_nat (r_dim x) = (rel_Nmax rs - L) / 2 + 1.

(** * States *)
Definition osc (N l : Z) : Prop := 0 <= l <= N /\ Z.even (N - l) = true.
Definition lab_ok (x : lab) : Prop := 0 <= b_L x /\ 0 <= b_S x <= 1 /\ 0 <= b_T x <= 1 /\ couples (b_L x) (b_S x) (b_J x) /\ b_g x = b_N x mod 2.
(** relative-cm states of the labels [x] *)
Definition cm_state (x : lab) (p : four) : Prop :=
  let '(Nr, lr, Nc, lc) := p in osc Nr lr /\ osc Nc lc /\ Nr + Nc = b_N x /\ couples lr lc (b_L x) /\ Z.odd (lr + b_S x + b_T x) = true.
(** two-body states: those of equal orbitals are antisymmetric *)
Definition tb_state (x : lab) (p : four) : Prop :=
  let '(N1, l1, N2, l2) := p in osc N1 l1 /\ osc N2 l2 /\ N1 + N2 = b_N x /\ couples l1 l2 (b_L x)
  /\ ((N1, l1) = (N2, l2) -> Z.odd (b_L x + b_S x + b_T x) = true).
(** a relative-cm space: any set of subspaces, each with all its states *)
Definition cm_space (sp : list lssub) : Prop :=
  NoDup (map fst sp) /\ Forall (fun x => lab_ok (fst x) /\ NoDup (snd x) /\ forall p, In p (snd x) <-> cm_state (fst x) p) sp.
(** a two-body space: any set of subspaces and states *)
Definition tb_space (sp : list lssub) : Prop :=
  NoDup (map fst sp) /\ Forall (fun x => lab_ok (fst x) /\ NoDup (snd x) /\ forall p, In p (snd x) -> tb_state (fst x) p) sp.
(** the labels of the second space are among those of the first, in the same order *)
Definition covers (cm tb : list lssub) : Prop := forall i k x y, (i <= k)%nat -> nth_error tb i = Some x -> nth_error tb k = Some y ->
  exists ib ik xb xk, (ib <= ik)%nat /\ nth_error cm ib = Some xb /\ nth_error cm ik = Some xk /\ fst xb = fst x /\ fst xk = fst y.
(** the LS labels of jj labels *)
Definition ls_of (x : jlab) (L S : Z) : lab := Lab L S (a_J x) (a_T x) (a_g x) (a_N x).
Definition orbs (p : orb3 * orb3) : four := let '((N1, l1, _), (N2, l2, _)) := p in (N1, l1, N2, l2).
(** a space of jj-coupled states: any set of subspaces and states *)
Definition jj_state (X : jlab) (p : orb3 * orb3) : Prop :=
  let '((N1, l1, _), (N2, l2, _)) := p in osc N1 l1 /\ osc N2 l2 /\ N1 + N2 = a_N X.
Definition jj_space (jj : list jjsub) : Prop :=
  Forall (fun X => 0 <= a_J (fst X) /\ 0 <= a_T (fst X) <= 1 /\ forall p, In p (snd X) -> jj_state (fst X) p) jj.
(** every LS state which a state of the jj space is composed of is in the LS space *)
Definition ls_complete (ls : list lssub) (jj : list jjsub) : Prop :=
  forall X p L S, In X jj -> In p (snd X) -> 0 <= S <= 1 -> couples L S (a_J (fst X)) -> 0 <= L -> tb_state (ls_of (fst X) L S) (orbs p) ->
  exists x, In x ls /\ fst x = ls_of (fst X) L S /\ In (orbs p) (snd x).

(** orbital order: by N and then l, respectively j *)
Definition ordered4 (a : four) : Prop := let '(N1, l1, N2, l2) := a in N1 < N2 \/ N1 = N2 /\ l1 <= l2.
Definition half_j (l j : Z) : Prop := j = 2 * l + 1 \/ j = 2 * l - 1.
Definition ordered_jj (p : orb3 * orb3) : Prop :=
  let '((N1, l1, j1), (N2, l2, j2)) := p in half_j l1 j1 /\ half_j l2 j2 /\ (N1 < N2 \/ N1 = N2 /\ j1 <= j2).
(** all LS states of ordered orbitals up to Nmax *)
Definition tb_full (Nmax : Z) (sp : list lssub) : Prop :=
  forall x a, lab_ok x -> b_N x <= Nmax -> tb_state x a -> ordered4 a -> exists X, In X sp /\ fst X = x /\ In a (snd X).

Section Formulas.
Variable u6jz : Z -> Z -> Z -> Z -> Z -> Z -> R.
Variable racah1 : Z -> Z -> Z -> Z -> Z -> Z -> Z -> R.
Variable u9j : Z -> Z -> Z -> Z -> Z -> Z -> Z -> R.
Variable mosh : Z -> Z -> Z -> Z -> Z -> Z -> Z -> Z -> Z -> R.
Variable flip : Z -> Z -> Z -> Z -> Z -> R.

(** exchange of bra and ket in reduced matrix elements *)
Definition flip_ok : Prop := forall T0 J T, 0 <= J -> 0 <= T -> flip T0 J T J T = 1%R.
Definition hermitian_rel (F : Z -> rlab -> Z -> rlab -> Z -> R) : Prop :=
  forall T0 x n y m, 0 <= rl_J x -> 0 <= rl_T x -> 0 <= rl_J y -> 0 <= rl_T y -> F T0 x n y m = (flip T0 (rl_J x) (rl_T x) (rl_J y) (rl_T y) * F T0 y m x n)%R.
Definition hermitian {A B} (J T : A -> Z) (G : Z -> A -> B -> A -> B -> R) : Prop :=
  forall T0 x a y b, 0 <= J x -> 0 <= T x -> 0 <= J y -> 0 <= T y -> G T0 x a y b = (flip T0 (J x) (T x) (J y) (T y) * G T0 y b x a)%R.
(** the factor for an operator acting on the first of two coupled systems is compatible with that exchange *)
Definition racah_flip (J0 : Z) : Prop := forall T0 T T' Jr lc J Jr' J', 0 <= Jr -> 0 <= J -> 0 <= Jr' -> 0 <= J' ->
  (racah1 Jr lc J Jr' lc J' J0 * flip T0 Jr T Jr' T' = flip T0 J T J' T' * racah1 Jr' lc J' Jr lc J J0)%R.

(** relative-cm matrix element: the cm motion is a spectator *)
Definition relcm_rme (Jmax J0 : Z) (F : Z -> rlab -> Z -> rlab -> Z -> R) (T0 : Z) (x : lab) (p : four) (y : lab) (q : four) : R :=
  let '(Nr, lr, Nc, lc) := p in let '(Nr', lr', Nc', lc') := q in
  if (Nc =? Nc') && (lc =? lc') then
    lsum (zrange 0 Jmax) (fun Jr => lsum (zrange 0 Jmax) (fun Jr' =>
      if couplesb lr (b_S x) Jr && couplesb lc (b_J x) Jr && (couplesb lr' (b_S y) Jr' && couplesb lc' (b_J y) Jr') && couplesb Jr J0 Jr' then
        u6jz lr lc (b_L x) (b_J x) (b_S x) Jr * u6jz lr' lc' (b_L y) (b_J y) (b_S y) Jr' * racah1 Jr lc (b_J x) Jr' lc' (b_J y) J0
        * F T0 (lr, b_S x, Jr, b_T x) Nr (lr', b_S y, Jr', b_T y) Nr'
      else 0))%R
  else 0%R.
(** all relative-cm states of the labels *)
Definition cm_stateb (x : lab) (p : four) : bool :=
  let '(Nr, lr, Nc, lc) := p in
  (lr <=? Nr) && Z.even (Nr - lr) && ((lc <=? Nc) && Z.even (Nc - lc)) && (Nr + Nc =? b_N x) && couplesb lr lc (b_L x) && Z.odd (lr + b_S x + b_T x).
Definition cm_states (x : lab) : list four :=
  let r := zrange 0 (b_N x) in filter (cm_stateb x) (list_prod (list_prod (list_prod r r) r) r).
Definition bracket_of (L : Z) (p a : four) : R :=
  let '(Nr, lr, Nc, lc) := p in let '(N1, l1, N2, l2) := a in
  mosh ((Nr - lr) / 2) lr ((Nc - lc) / 2) lc ((N1 - l1) / 2) l1 ((N2 - l2) / 2) l2 L.
(** antisymmetrized two-body matrix element *)
Definition tb_rme (G : Z -> lab -> four -> lab -> four -> R) (T0 : Z) (x : lab) (a : four) (y : lab) (b : four) : R :=
  (2 * lsum (cm_states x) (fun p => lsum (cm_states y) (fun q =>
     bracket_of (b_L x) p a * G T0 x p y q * bracket_of (b_L y) q b)))%R.
(** LS couplings of two nucleons to J *)
Definition ls_couplings (J : Z) : list (Z * Z) := flat_map (fun S => map (fun L => (L, S)) (zrange (Z.abs (J - S)) (J + S))) [0; 1].
Definition tb_stateb (x : lab) (p : four) : bool :=
  let '(N1, l1, N2, l2) := p in couplesb l1 l2 (b_L x) && (negb ((N1 =? N2) && (l1 =? l2)) || Z.odd (b_L x + b_S x + b_T x)).
Definition nine (p : orb3 * orb3) (L S J : Z) : R := let '((_, l1, j1), (_, l2, j2)) := p in u9j l1 j1 l2 j2 L S J.
(** jj-coupled matrix element *)
Definition jj_rme (H : Z -> lab -> four -> lab -> four -> R) (T0 : Z) (X : jlab) (p : orb3 * orb3) (Y : jlab) (q : orb3 * orb3) : R :=
  lsum (ls_couplings (a_J X)) (fun c => lsum (ls_couplings (a_J Y)) (fun d =>
    let x := ls_of X (fst c) (snd c) in let y := ls_of Y (fst d) (snd d) in
    if tb_stateb x (orbs p) && tb_stateb y (orbs q) then
      nine p (fst c) (snd c) (a_J X) * nine q (fst d) (snd d) (a_J Y) * H T0 x (orbs p) y (orbs q)
    else 0))%R.


(** * The identity *)
Definition delta {A} (dec : forall x y : A, {x = y} + {x <> y}) (x y : A) : R := if dec x y then 1%R else 0%R.
Definition dec4 : forall x y : Z * Z * Z * Z, {x = y} + {x <> y}. Proof. repeat decide equality. Defined.
Definition lab_dec : forall x y : lab, {x = y} + {x <> y}. Proof. repeat decide equality. Defined.
Definition jlab_dec : forall x y : jlab, {x = y} + {x <> y}. Proof. repeat decide equality. Defined.
Definition orb_dec : forall x y : orb3, {x = y} + {x <> y}. Proof. repeat decide equality. Defined.
Definition pair_dec : forall x y : orb3 * orb3, {x = y} + {x <> y}. Proof. repeat decide equality. Defined.
Definition id_rel (T0 : Z) (x : rlab) (n : Z) (y : rlab) (m : Z) : R := (delta Z.eq_dec T0 0%Z * delta dec4 x y * delta Z.eq_dec n m)%R.
(** antisymmetrized, not normalized: 2 for a pair of equal orbitals *)
Definition id_jj (T0 : Z) (X : jlab) (p : orb3 * orb3) (Y : jlab) (q : orb3 * orb3) : R :=
  (delta Z.eq_dec T0 0%Z * delta jlab_dec X Y * delta pair_dec p q * (1 + delta orb_dec (fst p) (snd p)))%R.
Definition sign (n : Z) : R := if Z.even n then 1%R else (-1)%R.
Definition swap4 (a : four) : four := let '(N1, l1, N2, l2) := a in (N2, l2, N1, l1).
(** pairs of oscillator states with N quanta, coupled to L *)
Definition lstate (N L : Z) (a : four) : Prop := let '(N1, l1, N2, l2) := a in osc N1 l1 /\ osc N2 l2 /\ N1 + N2 = N /\ couples l1 l2 L.
Definition lstateb (N L : Z) (a : four) : bool :=
  let '(N1, l1, N2, l2) := a in (l1 <=? N1) && Z.even (N1 - l1) && ((l2 <=? N2) && Z.even (N2 - l2)) && (N1 + N2 =? N) && couplesb l1 l2 L.
Definition lstates (N L : Z) : list four := let r := zrange 0 N in filter (lstateb N L) (list_prod (list_prod (list_prod r r) r) r).
(** the unitarity and the symmetries of the coefficients, up to N quanta *)
Definition racah_scalar : Prop := forall Jr lc J, 0 <= Jr -> couples Jr lc J -> racah1 Jr lc J Jr lc J 0 = 1%R.
Definition u6_unitary (Nmax : Z) : Prop := forall lr lc S J L L', 0 <= lr -> 0 <= lc -> lr + lc <= Nmax -> 0 <= S <= 1 ->
  couples lr lc L -> couples lr lc L' -> couples L S J -> couples L' S J ->
  lsum (zrange 0 (lr + S)) (fun Jr => if couplesb lr S Jr && couplesb lc J Jr then u6jz lr lc L J S Jr * u6jz lr lc L' J S Jr else 0)%R = delta Z.eq_dec L L'.
Definition bracket_unitary (Nmax : Z) : Prop := forall N L a b, N <= Nmax -> lstate N L a -> lstate N L b ->
  lsum (lstates N L) (fun p => bracket_of L p a * bracket_of L p b)%R = delta dec4 a b.
Definition bracket_exchange (Nmax : Z) : Prop := forall N L p a, N <= Nmax -> lstate N L p -> lstate N L a ->
  let '(_, lr, _, _) := p in let '(_, l1, _, l2) := a in bracket_of L p (swap4 a) = (sign (lr + l1 + l2 + L) * bracket_of L p a)%R.
Definition u9_unitary (Nmax : Z) : Prop := forall l1 j1 l2 j2 j1' j2' J, 0 <= l1 -> 0 <= l2 -> l1 + l2 <= Nmax -> 0 <= J ->
  half_j l1 j1 -> half_j l2 j2 -> half_j l1 j1' -> half_j l2 j2' -> 0 < j1 -> 0 < j2 -> 0 < j1' -> 0 < j2' -> couples j1 j2 (2 * J) -> couples j1' j2' (2 * J) ->
  lsum (ls_couplings J) (fun c => if couplesb l1 l2 (fst c) then u9j l1 j1 l2 j2 (fst c) (snd c) J * u9j l1 j1' l2 j2' (fst c) (snd c) J else 0)%R
  = (delta Z.eq_dec j1 j1' * delta Z.eq_dec j2 j2')%R.
Definition u9_exchange (Nmax : Z) : Prop := forall l1 j1 l2 j2 L S J, 0 <= l1 -> 0 <= l2 -> l1 + l2 <= Nmax -> half_j l1 j1 -> half_j l2 j2 -> 0 < j1 -> 0 < j2 ->
  couples l1 l2 L -> 0 <= S <= 1 -> couples L S J -> couples j1 j2 (2 * J) ->
  u9j l2 j2 l1 j1 L S J = (sign (l1 + l2 + L + 1 + S + (j1 + j2) / 2 + J) * u9j l1 j1 l2 j2 L S J)%R.
(** a jj state: the angular momenta couple to J, equal orbitals are antisymmetric *)
Definition jj_coupled (X : jlab) (p : orb3 * orb3) : Prop :=
  let '((N1, l1, j1), (N2, l2, j2)) := p in 0 < j1 /\ 0 < j2 /\ couples j1 j2 (2 * a_J X) /\ (fst p = snd p -> Z.odd (a_J X + a_T X) = true).
End Formulas.
(** all properties of the coefficients used *)
Definition coefficients_ok (u6jz : Z -> Z -> Z -> Z -> Z -> Z -> R) racah1 u9j mosh flip (Nmax : Z) : Prop :=
  flip_ok flip /\ racah_flip racah1 flip 0 /\ racah_scalar racah1 /\ u6_unitary u6jz Nmax /\ bracket_unitary mosh Nmax /\ bracket_exchange mosh Nmax
  /\ u9_unitary u9j Nmax /\ u9_exchange u9j Nmax.
Definition identity_states (Nmax : Z) (jj : list jjsub) : Prop :=
  Forall (fun X => a_N (fst X) <= Nmax /\ a_g (fst X) = a_N (fst X) mod 2 /\ forall p, In p (snd X) -> ordered_jj p /\ jj_coupled (fst X) p) jj.
