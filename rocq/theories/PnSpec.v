(** What a relative interaction file in the format of P. Navratil says. *)
From Coq Require Import List ZArith Reals Bool.
From Verif Require Import Base OscModel BlockModel ObioModel JpvModel JpvSpec PnModel.
Import ListNotations.
Open Scope Z_scope.

(** text of a line: seven integers and a number; anything may follow *)
Definition line_text (p : pline) (l : line) : Prop :=
  exists w more, l = [TInt (pl_np p); TInt (pl_Lp p); TInt (pl_n p); TInt (pl_L p); TInt (pl_S p); TInt (pl_J p); TInt (pl_Tz p); w] ++ more
  /\ forallb in_i32 [pl_np p; pl_Lp p; pl_n p; pl_L p; pl_S p; pl_J p; pl_Tz p] = true /\ word_value w = Some (pl_me p).
(** the line is about states of the space, and a sector holds their matrix elements *)
Definition line_ok (sp : rspace) (sectors : lsectors) (p : pline) : Prop :=
  0 <= pl_np p /\ 0 <= pl_n p /\ 0 <= pl_S p /\ 0 <= pl_L p /\ 0 <= pl_Lp p /\ -1 <= pl_Tz p <= 1
  /\ exists b k x y, nth_error sp b = Some x /\ nth_error sp k = Some y
  /\ sub_for (pl_S p) (pl_J p) (pl_Lp p) x /\ sub_for (pl_S p) (pl_J p) (pl_L p) y /\ (In (b, k) sectors \/ In (k, b) sectors).
(** the line gives the matrix element between radial states i of x and j of y *)
Definition about (p : pline) (x : rsub) (i : nat) (y : rsub) (j : nat) : bool :=
  (pl_Lp p =? r_L x) && (pl_S p =? r_S x) && (pl_J p =? r_J x) && (pl_np p =? Z.of_nat i)
  && (pl_L p =? r_L y) && (pl_S p =? r_S y) && (pl_J p =? r_J y) && (pl_n p =? Z.of_nat j).
(** the matrix element of a Hermitian operator: that of the last line about the two states, in either order, or [before] *)
Definition told (ps : list pline) (Tz : Z) (x : rsub) (i : nat) (y : rsub) (j : nat) (before : R) : R :=
  fold_left (fun v p => if (pl_Tz p =? Tz) && (about p x i y j || about p y j x i) then pl_me p else v) ps before.
(** sectors of the upper triangle *)
Definition upper (sectors : lsectors) : Prop := forall b k, In (b, k) sectors -> (b <= k)%nat.
(** subspaces: isospin and parity from L and S *)
Definition antisymmetric (sp : rspace) : Prop := forall x, In x sp -> sub_for (r_S x) (r_J x) (r_L x) x.
