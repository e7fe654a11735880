(** Vocabulary for the oscillator functions: Laguerre polynomials by their coefficients, oscillator functions in closed
    form, integrals. *)
From Coq Require Import List ZArith Reals Bool.
Open Scope R_scope.

(** x (x + 1) ... (x + n - 1) *)
Fixpoint poch (x : R) (n : nat) : R := match n with O => 1 | S k => poch x k * (x + INR k) end.
(** coefficient of t^k in the generalised Laguerre polynomial L_n^a:  (-1)^k (n+a choose n-k) / k! *)
Definition lagc (a : R) (n k : nat) : R := (-1) ^ k * poch (a + INR k + 1) (n - k) / (INR (fact (n - k)) * INR (fact k)).
Definition lag (a : R) (n : nat) (t : R) : R := sum_f_R0 (fun k => lagc a n k * t ^ k) n.

(** lim F = v at 0 from the right, at infinity, at 1 from the left *)
Definition lim0 (F : R -> R) (v : R) : Prop := forall e, 0 < e -> exists d, 0 < d /\ forall x, 0 < x < d -> Rabs (F x - v) < e.
Definition liminf (F : R -> R) (v : R) : Prop := forall e, 0 < e -> exists A, 0 < A /\ forall x, A < x -> Rabs (F x - v) < e.
Definition lim1 (F : R -> R) (v : R) : Prop := forall e, 0 < e -> exists d, 0 < d /\ forall x, 1 - d < x < 1 -> Rabs (F x - v) < e.
(** the integral of f from 0 to infinity is v (F: the integral from 0 to x) *)
Definition integral (f : R -> R) (v : R) : Prop :=
  exists F, (forall x, 0 < x -> derivable_pt_lim F x (f x)) /\ lim0 F 0 /\ liminf F v.
(** the integral of f from 0 to 1 is v *)
Definition integral01 (f : R -> R) (v : R) : Prop :=
  exists F, (forall x, 0 < x < 1 -> derivable_pt_lim F x (f x)) /\ lim0 F 0 /\ lim1 F v.

(** g is Gamma(l + 3/2) = integral of t^(l+1/2) e^-t, written with t = x^2 *)
Definition gamma_value (l : nat) (g : R) : Prop := integral (fun x => 2 * (x ^ (2 * l + 2) * exp (- (x * x)))) g.

(** the radial oscillator function (r times R_nl), positive at the origin, for length b:
    sqrt(2 n! / (b Gamma(n+l+3/2))) x^(l+1) e^(-x^2/2) L_n^(l+1/2)(x^2), x = r/b; [g] = Gamma(l + 3/2) *)
Definition osc (g : R) (n l : nat) (b r : R) : R :=
  sqrt (2 * INR (fact n) / (b * (g * poch (INR l + 3 / 2) n)))
  * ((r / b) ^ (l + 1) * exp (- ((r / b) * (r / b)) / 2) * lag (INR l + 1 / 2) n ((r / b) * (r / b))).
Definition delta (n m : nat) : R := if Nat.eqb n m then 1 else 0.
(** a function with the values of the gamma function at l + 3/2 *)
Definition gamma_fn (f : R -> R) : Prop := forall l : nat, gamma_value l (f (INR l + 3 / 2)).
