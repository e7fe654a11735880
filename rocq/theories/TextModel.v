(** Text form of a matrix element in an H2 file: the format "{:+16.7e}" of
    h2_io_v0.cpp:436, h2_io_v15099.cpp:674 and h2_io_v15200.cpp:520 applied to a float.

    A float is given by its 32 bits, as in [narrow]/[fmt_f] of H2Model.v.  fmt prints the
    decimal of 8 significant digits nearest to the value, ties to even (fmt's Dragon4/Grisu
    with fixed precision; the float is promoted to double, which is exact).  The padding to 16
    columns is not modelled: it does not change what is read back. *)
From Coq Require Import ZArith List Bool.
From Verif Require Import Base.
Import ListNotations.
Open Scope Z_scope.

(** IEEE 754 binary32 *)
Definition f_sign (x : Z) : bool := Z.odd (x / 2 ^ 31).
Definition f_exp (x : Z) : Z := (x / 2 ^ 23) mod 256.
Definition f_man (x : Z) : Z := x mod 2 ^ 23.
Definition is_float (x : Z) : Prop := 0 <= x < 2 ^ 32.
Definition f_finite (x : Z) : bool := negb (f_exp x =? 255).
(** magnitude of a finite float in units of 2^-149 *)
Definition f_mag (x : Z) : Z :=
  if f_exp x =? 0 then f_man x else (f_man x + 2 ^ 23) * 2 ^ (f_exp x - 1).

(** what is printed: sign, 8 digits d.ddddddd as an integer, decimal exponent *)
Inductive ptext := PNum (s : bool) (digits : Z) (e : Z) | PInf (s : bool) | PNan (s : bool).

(** nearest integer to a/b, ties to even *)
Definition nearest (a b : Z) : Z :=
  let q := a / b in
  let r := a mod b in
  if 2 * r <? b then q
  else if b <? 2 * r then q + 1
  else if Z.even q then q else q + 1.

(** m * 2^-149 * 10^(7-e) = m * up e / down e *)
Definition up (e : Z) : Z := 10 ^ Z.max (7 - e) 0.
Definition down (e : Z) : Z := 2 ^ 149 * 10 ^ Z.max (e - 7) 0.

(** exponents -45, ..., 38: every finite float has one of them *)
Definition exponents : list Z := map (fun i => Z.of_nat i - 45) (seq 0 84).
Definition dec_exponent (m : Z) : option Z :=
  find (fun e => (10 ^ 7 * down e <=? m * up e) && (m * up e <? 10 ^ 8 * down e)) exponents.

Definition printed (x : Z) : ptext :=
  if f_finite x then
    match dec_exponent (f_mag x) with
    | None => PNum (f_sign x) 0 0                     (* zero *)
    | Some e =>
        let d := nearest (f_mag x * up e) (down e) in
        if d =? 10 ^ 8 then PNum (f_sign x) (10 ^ 7) (e + 1) else PNum (f_sign x) d e
    end
  else if f_man x =? 0 then PInf (f_sign x) else PNan (f_sign x).
