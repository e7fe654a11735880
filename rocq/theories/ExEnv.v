(** A concrete environment for the examples: doubles are integers, single precision keeps 32
    bits, printed numbers scan back, and the basis library is a small version of the real one
    (oscillator orbitals, two-body subspaces by species, J and parity, sectors by selection
    rules).  It is used only in Examples. *)
From Coq Require Import String List ZArith Lia Bool.
From Verif Require Import Base H2Model.
Import ListNotations.
Open Scope Z_scope.

Definition zrange (a b : Z) : list Z := map (fun i => a + Z.of_nat i) (seq 0 (Z.to_nat (b - a + 1))).

(** orbitals with 2n+l <= N, weight 2n+l *)
Definition ex_osc (sp : ospecies) (N : Z) : list (orbital Z) :=
  flat_map (fun M => flat_map (fun l =>
     if Z.even (M - l) then
       flat_map (fun tj => if 0 <? tj then [Orb sp ((M - l) / 2) l tj M] else []) [2 * l - 1; 2 * l + 1]
     else []) (zrange 0 M)) (zrange 0 N).

Definition indexed {A} (l : list A) : list (nat * A) := combine (seq 0 (length l)) l.

Definition ex_states (like : bool) (p n : list (orbital Z)) (w1 w2 w12 J g : Z) : list (nat * nat) :=
  flat_map (fun ia => flat_map (fun ib =>
    let '(i, a) := ia in let '(j, b) := ib in
    if (negb like || Nat.leb i j)
       && (o_w a <=? w1) && (o_w b <=? w2) && (o_w a + o_w b <=? w12)
       && (Z.abs (o_2j a - o_2j b) <=? 2 * J) && (2 * J <=? o_2j a + o_2j b)
       && ((o_l a + o_l b) mod 2 =? g)
       && (negb like || negb (Nat.eqb i j) || Z.even J)
    then [(i, j)] else []) (indexed n)) (indexed p).

Definition ex_jmax (p : list (orbital Z)) : Z := fold_right Z.max 0 (map o_2j p).

Definition ex_space (o : ordering) (p n : list (orbital Z)) (w : wmax Z) : list subspace :=
  flat_map (fun sp =>
    let '(a, b, w1, w2, w12) :=
      match sp with
      | PP => (p, p, w_p w, w_p w, w_pp w)
      | NN => (n, n, w_n w, w_n w, w_nn w)
      | PN => (p, n, w_p w, w_n w, w_pn w)
      end in
    flat_map (fun J => flat_map (fun g =>
       match ex_states (match sp with PN => false | _ => true end) a b w1 w2 w12 J g with
       | [] => []
       | sts => [Sub sp J g sts]
       end) [0; 1])
      (zrange 0 ((ex_jmax a + ex_jmax b) / 2)))
    (match o with KPN => [PP; NN; PN] | KTz => [PP; PN; NN] end).

Definition tz_of (sp : species) : Z := match sp with PP => 1 | NN => -1 | PN => 0 end.

Definition ex_sectors (space : list subspace) (J0 g0 Tz0 : Z) : list sector :=
  flat_map (fun ia => flat_map (fun ib =>
    let '(i, a) := ia in let '(j, b) := ib in
    if Nat.leb i j && (Z.abs (ss_J a - ss_J b) <=? J0) && (J0 <=? ss_J a + ss_J b)
       && ((ss_g a + ss_g b + g0) mod 2 =? 0) && (Z.abs (tz_of (ss_species a) - tz_of (ss_species b)) =? Z.abs Tz0)
    then [Sec a b i j] else []) (indexed space)) (indexed space).

Definition ex_line (o : orbital Z) : list (word Z) :=
  [WInt (match o_sp o with SP => 1 | SN => 2 end); WInt (o_n o); WInt (o_l o); WInt (o_2j o); WTxt (o_w o)].
Definition ex_parse1 (l : list (word Z)) : outcome (orbital Z) :=
  match l with
  | [WInt s; WInt n; WInt l; WInt j; WTxt w] => Ok (Orb (if s =? 1 then SP else SN) n l j w)
  | _ => Exit
  end.
Fixpoint ex_parse (ls : list (list (word Z))) : outcome (list (orbital Z)) :=
  match ls with
  | [] => Ok []
  | l :: ls => bind (ex_parse1 l) (fun o => bind (ex_parse ls) (fun os => Ok (o :: os)))
  end.

Definition ex_env : env := {|
  dbl := Z; d0 := 0; d1 := 1; dinvsqrt2 := 3;
  dmul := Z.mul; deqb := Z.eqb; d_to_int := fun x => x;
  narrow := fun x => x mod two32; widen := i32;
  txt := Z; fmt_f := fun x => x; fmt_d := fun x => x mod two32;
  scan_f := fun w => match w with WInt z => Some z | WTxt z => Some z end;
  orb_lines := fun _ os => map ex_line os;
  parse_orbs := fun _ ls => ex_parse ls;
  weight_max_of := fun os => fold_right Z.max 0 (map o_w os);
  osc_orbitals := fun N => (ex_osc SP N, ex_osc SN N);
  osc_wmax := fun N1 N2 => WMax N1 N1 N2 N2 N2;
  mk_space := ex_space;
  mk_sectors := ex_sectors
|}.

(** the indexing of the operators with quantum numbers J0, g0, Tz0 on an oscillator space *)
Definition ex_ix (o : ordering) (N1 N2 J0 g0 Tz0 : Z) : indexing ex_env :=
  let w := WMax N1 N1 N2 N2 N2 in
  let space := ex_space o (ex_osc SP N1) (ex_osc SN N1) w in
  @Ix ex_env (ex_osc SP N1) (ex_osc SN N1) o w space J0 g0 Tz0 (ex_sectors space J0 g0 Tz0).

(** a matrix with distinct elements *)
Definition ex_mat (i : nat) (s : sector) : mat Z :=
  Mat (length (ss_states (s_bra s))) (length (ss_states (s_ket s)))
      (fun b k => 1000 * Z.of_nat i + 100 * Z.of_nat b + 10 * Z.of_nat k - 40).
Definition ex_ws (c : conversion) (ix : indexing ex_env) : list (mat Z * conversion) :=
  map (fun p => (ex_mat (fst p) (snd p), c)) (indexed (ix_sectors ex_env ix)).
