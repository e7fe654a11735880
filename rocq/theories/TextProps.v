(** C72. *)
From Coq Require Import ZArith List Bool.
From Verif Require Import Base H2Model H2Spec TextModel TextProof TextFinal.
Import ListNotations.
Open Scope Z_scope.

(** C72 is false: 10.0000095367... and 10.0000104904... are different floats with the same text *)
Theorem C72_same_text_refuted : exists x y, is_float x /\ is_float y /\ f_finite x = true /\ f_finite y = true
  /\ f_mag x <> f_mag y /\ printed x = printed y.
Proof. exact same_text. Qed.
Print Assumptions C72_same_text_refuted.

(** ... so whatever the reader does, one of them does not come back *)
Theorem C72_element_refuted : forall (E : env) text_of (format : forall x, fmt_f E x = text_of (printed x)),
  exists x y, is_float x /\ is_float y /\ f_finite x = true /\ f_finite y = true /\ x <> y
  /\ (via_text E x <> x \/ via_text E y <> y \/ scan_f E (WTxt (fmt_f E x)) = None).
Proof. exact text_lossy. Qed.
Print Assumptions C72_element_refuted.

(** ... and two matrices whose elements have the same text give the same lines, in every format *)
Theorem C72_same_lines : forall (E : env) text_of (format : forall x, fmt_f E x = text_of (printed x)) f ix i m m' c,
  (forall s bi ki x y, out_element E c s m bi ki = Ok x -> out_element E c s m' bi ki = Ok y -> printed x = printed y) ->
  wr_txt E f ix i m c = wr_txt E f ix i m' c.
Proof. exact same_lines. Qed.
Print Assumptions C72_same_lines.

(** the text has eight digits and is off by at most half of the last of them *)
Theorem C72_digits : forall x, is_float x -> f_finite x = true -> f_mag x <> 0 ->
  exists d e, printed x = PNum (f_sign x) d e /\ 10 ^ 7 <= d < 10 ^ 8
  /\ 2 * Z.abs (f_mag x * up e - d * down e) <= down e.
Proof. exact printed_digits. Qed.
Print Assumptions C72_digits.

Theorem C72_zero : forall x, f_finite x = true -> f_mag x = 0 -> printed x = PNum (f_sign x) 0 0.
Proof. exact printed_zero. Qed.
Print Assumptions C72_zero.

(** a float exactly half way between two texts gets the one of even last digit *)
Theorem C72_ties : forall x d e, is_float x -> f_finite x = true -> f_mag x <> 0 -> printed x = PNum (f_sign x) d e ->
  2 * Z.abs (f_mag x * up e - d * down e) = down e -> Z.Even d.
Proof. exact printed_ties. Qed.
Print Assumptions C72_ties.

(** 1048576.25 and 1048576.75 are such floats *)
Example C72_ex_ties : map (fun m => printed (147 * 2 ^ 23 + m)) [2; 6] = [PNum false 10485762 6; PNum false 10485768 6]
  /\ 2 * Z.abs (f_mag (147 * 2 ^ 23 + 2) * up 6 - 10485762 * down 6) = down 6.
Proof. split; vm_compute; reflexivity. Qed.

(** infinities are written as such, all the other patterns of the last exponent as NaN *)
Theorem C72_special : forall x, f_exp x = 255 ->
  (f_man x = 0 -> printed x = PInf (f_sign x)) /\ (f_man x <> 0 -> printed x = PNan (f_sign x)).
Proof. exact printed_special_cases. Qed.
Print Assumptions C72_special.

Example C72_ex_special : map (fun m => printed (255 * 2 ^ 23 + m)) [0; 1; 2 ^ 22] = [PInf false; PNan false; PNan false].
Proof. vm_compute. reflexivity. Qed.

(** where the last digit is finer than the spacing of the floats, the element comes back (the reader is assumed to round to
    the nearest float) *)
Theorem C72_exact_partial : forall (E : env) text_of (format : forall x, fmt_f E x = text_of (printed x)) x d e,
  forall (reader : correct_reader (fun p => scan_f E (WTxt (text_of p)))), is_float x -> f_finite x = true -> f_mag x <> 0 ->
  printed x = PNum (f_sign x) d e -> fine x e -> via_text E x = x.
Proof. exact text_exact. Qed.
Print Assumptions C72_exact_partial.

(** such a reader exists *)
Theorem C72_reader : exists read, correct_reader read.
Proof. exact reader_exists. Qed.
Print Assumptions C72_reader.

(** ... and no other float has its text *)
Theorem C72_distinct_partial : forall x y d e s, is_float x -> is_float y -> f_finite x = true -> f_finite y = true ->
  f_mag x <> 0 -> f_mag y <> 0 -> printed x = PNum s d e -> fine x e -> printed y = printed x -> y = x.
Proof. exact fine_distinct. Qed.
Print Assumptions C72_distinct_partial.

(** this is so between 1 and 10 *)
Theorem C72_unit_decade : forall x d s, is_float x -> f_finite x = true -> printed x = PNum s d 0 -> f_mag x > 2 ^ 149 -> fine x 0.
Proof. exact fine_unit_decade. Qed.
Print Assumptions C72_unit_decade.

(** 10 + 10 ulp, 10 + 11 ulp; the smallest and the largest float; 1; -0; 1/0 *)
Example C72_ex : map printed [1092616202; 1092616203; 1; 2139095039; 1065353216; 2147483648; 2139095040]
  = [PNum false 10000010 1; PNum false 10000010 1; PNum false 14012985 (-45); PNum false 34028235 38; PNum false 10000000 0;
     PNum true 0 0; PInf false].
Proof. vm_compute. reflexivity. Qed.
(** 3.14159274... : the floats around it have other texts, and it is fine *)
Example C72_ex_fine : printed 1078530011 = PNum false 31415927 0 /\ printed 1078530010 = PNum false 31415925 0
  /\ f_mag 1078530011 > 2 ^ 149.
Proof. vm_compute. split; [reflexivity|]. split; reflexivity. Qed.
