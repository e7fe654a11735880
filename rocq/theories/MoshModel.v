(** libraries/moshinsky/moshinsky_bracket.cpp: oscillator (Moshinsky) brackets with their cache.

    Real numbers stand for double, integers of unlimited size for int.  am::Wigner6J and am::Unitary6J (module am, not in the
    repository) are abstract.  gsl_sf_fact(n) is n! for 0 <= n <= 170 and otherwise ends the process (GSL's default error
    handler aborts); the limit is a parameter of the model.  mcutils::Memoizer (not in the repository) is a map: Seek looks a
    key up, GetValue returns what Seek found, SetValue stores.  The order of evaluation of the terms of a sum, which C++ leaves
    open, is from left to right. *)
From Coq Require Import List ZArith Reals Bool Lia.
From Verif Require Import Base OscModel.
Import ListNotations.
Open Scope Z_scope.
Open Scope outcome_scope.

Definition parity_sign (z : Z) : R := if Z.even z then 1%R else (-1)%R.
(** Hat(j) of an integer j *)
Definition int_hat (j : Z) : R := sqrt (IZR (2 * j + 1)).
Definition gsl_fact_max : Z := 170.

Section MODEL.
Variable fmax : Z.
Variables w6j u6j : Z -> Z -> Z -> Z -> Z -> Z -> R.

(** gsl_sf_fact; a negative int becomes a huge unsigned int *)
Definition gfact (n : Z) : outcome R := if (0 <=? n) && (n <=? fmax) then Ok (INR (fact (Z.to_nat n))) else Exit.

(** values q = from, from+2, ... <= to *)
Definition by_two (from to : Z) : list Z := map (fun i => from + 2 * Z.of_nat i) (seq 0 (Z.to_nat ((to - from) / 2 + 1))).

(** the loop "sum += body(x)" over a list of values *)
Definition sum_over {A} (l : list A) (body : A -> outcome R) : outcome R :=
  for_each l (fun x s => t <- body x ;; Ok (s + t)%R) 0%R.

(** moshinsky_bracket.cpp:56-66, one term *)
Definition a_term (l1 d1 l2 d2 kappa q : Z) : outcome R :=
  f1 <- gfact (q - kappa) ;; f2 <- gfact (q + kappa + 1) ;;
  f3 <- gfact (d1 - l1 + q) ;;
  f4 <- gfact (Z.quot (d1 - l1 + q) 2) ;; f5 <- gfact (Z.quot (d1 + l1 - q) 2) ;;
  f6 <- gfact (d2 - l2 + q) ;;
  f7 <- gfact (Z.quot (d2 - l2 + q) 2) ;; f8 <- gfact (Z.quot (d2 + l2 - q) 2) ;;
  Ok (parity_sign (Z.quot (d1 - l1 + q) 2) / (f1 * f2) * f3 / (f4 * f5) * f6 / (f7 * f8))%R.

(** MoshinskyACoefficient, moshinsky_bracket.cpp:35-71; d1, d2 are l1_dot, l2_dot *)
Definition a_coefficient (l1 d1 l2 d2 kappa : Z) : outcome R :=
  f1 <- gfact (l1 + d1 + kappa + 1) ;; f2 <- gfact (l1 + d1 - kappa) ;; f3 <- gfact (l1 - d1 + kappa) ;;
  f4 <- gfact (d1 - l1 + kappa) ;;
  f5 <- gfact (l2 + d2 + kappa + 1) ;; f6 <- gfact (l2 + d2 - kappa) ;; f7 <- gfact (l2 - d2 + kappa) ;;
  f8 <- gfact (d2 - l2 + kappa) ;;
  let prefactor := sqrt (f1 * f2 * f3 / f4 * (f5 * f6 * f7) / f8) in
  let q_min := kappa + Z.rem (kappa + d1 + l1) 2 in
  let q_max := Z.min (d1 + l1) (d2 + l2) in
  sum <- sum_over (by_two q_min q_max) (a_term l1 d1 l2 d2 kappa) ;;
  Ok (prefactor * sum)%R.

(** SeedMoshinskyBracket, moshinsky_bracket.cpp:73-113; m1, m2 are n1_dot, n2_dot.
    am::ProductAngularMomentumRange(a,b) is (|a-b|, a+b); am::AngularMomentumRangeIntersection takes the larger of the lower
    and the smaller of the upper ends *)
Definition seed (m1 d1 m2 d2 l1 l2 Lambda : Z) : outcome R :=
  f1 <- gfact l1 ;; f2 <- gfact l2 ;; f3 <- gfact (2 * l1) ;; f4 <- gfact (2 * l2) ;;
  g1 <- gfact (m1 + d1) ;; g2 <- gfact m1 ;; g3 <- gfact (2 * m1 + 2 * d1 + 1) ;;
  h1 <- gfact (m2 + d2) ;; h2 <- gfact m2 ;; h3 <- gfact (2 * m2 + 2 * d2 + 1) ;;
  let prefactor := (parity_sign (m1 + d1 + d2 - Lambda)
    * sqrt (f1 * f2 / (f3 * f4) * IZR ((2 * d1 + 1) * (2 * d2 + 1)) / 2 ^ (Z.to_nat (d1 + d2)) * g1 / (g2 * g3) * h1 / (h2 * h3)))%R in
  let kappa_min := Z.max (Z.abs (l1 - d1)) (Z.abs (l2 - d2)) in
  let kappa_max := Z.min (l1 + d1) (l2 + d2) in
  sum <- sum_over (zrange kappa_min kappa_max) (fun kappa =>
    a <- a_coefficient l1 d1 l2 d2 kappa ;;
    Ok (IZR (2 * kappa + 1) * a / (int_hat Lambda * int_hat kappa) * u6j d1 d2 Lambda l2 l1 kappa)%R) ;;
  Ok (prefactor * sum)%R.

(** the arguments of MoshinskyBracket *)
Record key := K { n1_dot : Z; l1_dot : Z; n2_dot : Z; l2_dot : Z; kn1 : Z; kl1 : Z; kn2 : Z; kl2 : Z; kL : Z }.
Definition key_eqb (a b : key) : bool :=
  (n1_dot a =? n1_dot b) && (l1_dot a =? l1_dot b) && (n2_dot a =? n2_dot b) && (l2_dot a =? l2_dot b)
  && (kn1 a =? kn1 b) && (kl1 a =? kl1 b) && (kn2 a =? kn2 b) && (kl2 a =? kl2 b) && (kL a =? kL b).
(** the static cache, and the list of all brackets asked for so far (latest first; only for stating properties) *)
Record mstate := MS { cache : list (key * R); asked : list key }.
Definition seek (k : key) (c : list (key * R)) : option R := option_map snd (find (fun e => key_eqb (fst e) k) c).
(** result of a call: a value and the new state, the end of the process, or no result yet after the given number of nested
    calls *)
Inductive mres := MOk (v : R) (s : mstate) | MAbort | MFuel.
Definition mbind (m : mres) (f : R -> mstate -> mres) : mres := match m with MOk v s => f v s | MAbort => MAbort | MFuel => MFuel end.

Definition negative (k : key) : bool :=
  (n1_dot k <? 0) || (l1_dot k <? 0) || (n2_dot k <? 0) || (l2_dot k <? 0) || (kn1 k <? 0) || (kl1 k <? 0) || (kn2 k <? 0) || (kl2 k <? 0).
Definition quanta_dot (k : key) : Z := 2 * n1_dot k + l1_dot k + 2 * n2_dot k + l2_dot k.
Definition quanta (k : key) : Z := 2 * kn1 k + kl1 k + 2 * kn2 k + kl2 k.
(** am::AllowedTriangle of integers *)
Definition allowed_triangle (a b c : Z) : bool := (Z.abs (a - b) <=? c) && (c <=? a + b).

(** the term ONLYIF(cond, c * MoshinskyBracket(k)): neither evaluated nor counted unless cond *)
Definition only_if (call : key -> mstate -> mres) (cond : bool) (c : R) (k : key) (s : mstate) : mres :=
  if cond then mbind (call k s) (fun v s => MOk (c * v)%R s) else MOk 0%R s.
Fixpoint add_terms (call : key -> mstate -> mres) (l : list (bool * R * key)) (acc : R) (s : mstate) : mres :=
  match l with
  | [] => MOk acc s
  | (cond, c, k) :: l' => mbind (only_if call cond c k s) (fun v s => add_terms call l' (acc + v)%R s)
  end.
(** moshinsky_bracket.cpp:198-253, the six terms of the recursion *)
Definition terms (k : key) : list (bool * R * key) :=
  let '(m1, d1, m2, d2) := (n1_dot k, l1_dot k, n2_dot k, l2_dot k) in
  let '(n1, l1, n2, l2, L) := (kn1 k, kl1 k, kn2 k, kl2 k, kL k) in
  let sg := parity_sign (d1 + d2 + L) in
  [ (negb (m1 =? 0), (1 / 2 * sqrt (IZR m1 * (IZR m1 + IZR d1 + 1 / 2)))%R, K (m1 - 1) d1 m2 d2 (n1 - 1) l1 n2 l2 L);
    (negb (m2 =? 0), (1 / 2 * sqrt (IZR m2 * (IZR m2 + IZR d2 + 1 / 2)))%R, K m1 d1 (m2 - 1) d2 (n1 - 1) l1 n2 l2 L);
    (negb (m1 =? 0) && negb (m2 =? 0), (sg * sqrt (IZR (m1 * m2 * (d1 + 1) * (d2 + 1))) * w6j d1 (d1 + 1) 1 (d2 + 1) d2 L)%R,
      K (m1 - 1) (d1 + 1) (m2 - 1) (d2 + 1) (n1 - 1) l1 n2 l2 L);
    (negb (m1 =? 0) && negb (d2 =? 0), (sg * sqrt (IZR m1 * (IZR m2 + IZR d2 + 1 / 2) * IZR (d1 + 1) * IZR d2) * w6j d1 (d1 + 1) 1 (d2 - 1) d2 L)%R,
      K (m1 - 1) (d1 + 1) m2 (d2 - 1) (n1 - 1) l1 n2 l2 L);
    (negb (d1 =? 0) && negb (m2 =? 0), (sg * sqrt ((IZR m1 + IZR d1 + 1 / 2) * IZR m2 * IZR d1 * IZR (d2 + 1)) * w6j d1 (d1 - 1) 1 (d2 + 1) d2 L)%R,
      K m1 (d1 - 1) (m2 - 1) (d2 + 1) (n1 - 1) l1 n2 l2 L);
    (negb (d1 =? 0) && negb (d2 =? 0), (sg * sqrt ((IZR m1 + IZR d1 + 1 / 2) * (IZR m2 + IZR d2 + 1 / 2) * IZR d1 * IZR d2) * w6j d1 (d1 - 1) 1 (d2 - 1) d2 L)%R,
      K m1 (d1 - 1) m2 (d2 - 1) (n1 - 1) l1 n2 l2 L) ].

(** MoshinskyBracket, moshinsky_bracket.cpp:119-268; [depth] bounds the nesting of calls *)
Fixpoint bracket (depth : nat) (k : key) (s : mstate) : mres :=
  match depth with
  | O => MFuel
  | S depth =>
    let s := MS (cache s) (k :: asked s) in
    if negative k then MOk 0%R s else
    match seek k (cache s) with
    | Some v => MOk v s
    | None =>
      mbind
        (if negb (quanta_dot k =? quanta k) || negb (allowed_triangle (l1_dot k) (l2_dot k) (kL k)) || negb (allowed_triangle (kl1 k) (kl2 k) (kL k)) then
           MOk 0%R s
         else if (kn1 k =? 0) && (kn2 k =? 0) then
           match seed (n1_dot k) (l1_dot k) (n2_dot k) (l2_dot k) (kl1 k) (kl2 k) (kL k) with Ok v => MOk v s | _ => MAbort end
         else if kn1 k =? 0 then
           mbind (bracket depth (K (n1_dot k) (l1_dot k) (n2_dot k) (l2_dot k) (kn2 k) (kl2 k) (kn1 k) (kl1 k) (kL k)) s)
             (fun v s => MOk (parity_sign (l2_dot k - kL k) * v)%R s)
         else
           mbind (add_terms (bracket depth) (terms k) 0%R s)
             (fun v s => MOk (1 / sqrt (IZR (kn1 k) * (IZR (kn1 k) + IZR (kl1 k) + 1 / 2)) * v)%R s))
        (fun v s => MOk v (MS ((k, v) :: cache s) (asked s)))
    end
  end.

(** calls nested this deep suffice (C38) *)
Definition enough (k : key) : nat := Z.to_nat (Z.max 0 (kn1 k) + Z.max 0 (kn2 k) + 2).
Definition request (k : key) (s : mstate) : mres := bracket (enough k) k s.
(** a history of requests; the process ends at the first abort *)
Fixpoint history (l : list key) (s : mstate) : option mstate :=
  match l with [] => Some s | k :: l' => match request k s with MOk _ s' => history l' s' | _ => None end end.
Definition start : mstate := MS [] [].
End MODEL.

(** * Overflow of double in the prefactor of MoshinskyACoefficient, moshinsky_bracket.cpp:40-46

    Products and quotients of positive doubles, rounding left out: a result above the largest double is infinite, and an
    infinite factor or numerator leaves an infinite result. *)
Inductive ext := Fin (x : R) | Inf.
Definition dbl_max : R := IZR (2 ^ 1024 - 2 ^ 971).
Definition clip (x : R) : ext := if Rle_dec x dbl_max then Fin x else Inf.
Definition emul (a b : ext) : ext := match a, b with Fin x, Fin y => clip (x * y) | _, _ => Inf end.
Definition ediv (a : ext) (y : R) : ext := match a with Fin x => clip (x / y) | Inf => Inf end.
Definition zf (n : Z) : R := INR (fact (Z.to_nat n)).
Definition radicand_double (l1 d1 l2 d2 kappa : Z) : ext :=
  ediv (emul (ediv (emul (emul (Fin (zf (l1 + d1 + kappa + 1))) (Fin (zf (l1 + d1 - kappa)))) (Fin (zf (l1 - d1 + kappa)))) (zf (d1 - l1 + kappa)))
             (emul (emul (Fin (zf (l2 + d2 + kappa + 1))) (Fin (zf (l2 + d2 - kappa)))) (Fin (zf (l2 - d2 + kappa)))))
       (zf (d2 - l2 + kappa)).
