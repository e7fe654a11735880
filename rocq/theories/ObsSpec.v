(** What density files and the control file of obscalc-ob say, independently of the readers. *)
From Coq Require Import String List ZArith Reals Bool.
From Verif Require Import Base RMat H2Model MapModel OscModel BlockModel BlockSpec ObioModel ObioSpec MixModel ObmModel NatModel RgModel HmModel ObsModel.
Import ListNotations.
Open Scope R_scope.

(** lines with words *)
Definition with_words (ls : list dline) : list dline := filter (fun l => negb (is_nil l)) ls.
(** integers that fit their variable, then anything *)
Definition ints (l : dline) (zs : list Z) : Prop := exists rest, l = map TInt zs ++ rest /\ Forall (fun z => in_i32 z = true) zs.
(** counts *)
Definition counts (l : dline) (zs : list Z) : Prop := exists rest, l = map TInt zs ++ rest /\ Forall (fun z => in_u64 z = true) zs.
(** a state of a nucleus: protons, neutrons, 2J, 2M, parity grade, number among the states with this J and parity *)
Record nstate : Type := NState { n_Z : Z; n_N : Z; n_2J : Z; n_2M : Z; n_g : Z; n_n : Z }.
Definition number_of (t : tok R) (x : R) : Prop := t = TNum x \/ exists z, t = TInt z /\ x = IZR z.

(** ** Files of version 1520 *)
Definition state_line (l : dline) (x : nstate) : Prop :=
  exists seq p rest, l = [TInt (n_Z x); TInt (n_N x); TInt seq; TInt (n_2J x); TInt (n_2M x); TInt p; TInt (n_n x)] ++ rest
  /\ ((p = 1 /\ n_g x = 0) \/ (p = -1 /\ n_g x = 1))%Z.
(** an element: numbers of two orbitals of the list, multipole, value *)
Definition element_line (l : dline) (e : data_line) : Prop :=
  exists t rest, l = [TInt (dl_a e); TInt (dl_b e); TInt (dl_J0 e); t] ++ rest /\ number_of t (dl_v e)
  /\ in_i32 (dl_a e) = true /\ in_i32 (dl_b e) = true /\ in_i32 (dl_J0 e) = true.
(** states, range of multipoles, numbers of proton and neutron orbitals, orbital lines, elements *)
Record single_file (t : dtext) (bra ket : nstate) (a b np nn : Z) (orbs : list dline) (els : list data_line) : Prop := {
  sf_newline : snd t = true;
  sf_lines : exists l1 l2 l3 l4 l5 l6 l7 data e1 e2, with_words (fst t) = [l1; l2; l3; l4; l5; l6; l7] ++ orbs ++ data
    /\ ints l1 [1520%Z] /\ state_line l2 bra /\ state_line l3 ket /\ ints l4 [a] /\ ints l5 [b] /\ counts l6 [np; nn] /\ counts l7 [e1; e2]
    /\ Forall2 element_line data els;
  sf_orbitals : Z.of_nat (length orbs) = (np + nn)%Z }.

(** ** Files of versions 1405 and 1500 *)
(** the two files: states, largest multipole, numbers of orbitals, elements with their labels *)
Definition info_line_1500 (l : dline) (i : info_line) : Prop :=
  exists x ia ib c s, ints l [x; ia; fl_n (il_bra i); fl_l (il_bra i); fl_2j (il_bra i); ib; fl_n (il_ket i); fl_l (il_ket i); fl_2j (il_ket i); il_J0 i; c]
  /\ fl_sp (il_bra i) = Some s /\ fl_sp (il_ket i) = Some s /\ c = match s with SP => 1%Z | SN => 2%Z end.
Definition multi_state_line (l : dline) (x : nstate) : Prop := exists T, ints l [n_2M x; n_2J x; n_n x; T].
Record multi_data (t : dtext) (version : Z) (bra ket : nstate) (announced : list Z) (vs : list R) : Prop := {
  md_newline : snd t = true;
  md_lines : exists l1 l2 l3 l4 l5 pre body, fst t = pre ++ l5 :: body /\ with_words pre = [l1; l2; l3; l4]
    /\ ints l1 [version] /\ ints l2 [n_Z bra; n_N bra] /\ multi_state_line l3 bra /\ multi_state_line l4 ket /\ counts l5 announced
    /\ announced <> []
    /\ exists ts rest, concat body = ts ++ rest /\ Forall2 number_of ts vs }.
Record info_1500_file (t : dtext) (J0_max np nn ep en : Z) (info : list info_line) : Prop := {
  i5_newline : snd t = true;
  i5_lines : exists l1 l2 l3 l4 pre c1 c2 body more, fst t = pre ++ l4 :: c1 :: c2 :: body /\ with_words pre = [l1; l2; l3]
    /\ ints l1 [1500%Z] /\ ints l2 [J0_max] /\ counts l3 [np; nn] /\ counts l4 [ep; en]
    /\ exists ls, with_words body = ls ++ more /\ Forall2 info_line_1500 ls info;
  i5_count : Z.of_nat (length info) = (ep + en)%Z }.
(** the lines list the elements of one species; those of the other have the same labels *)
Definition info_line_1405 (l : dline) (i : info_line) : Prop :=
  exists x, ints l [x; fl_n (il_bra i); fl_l (il_bra i); fl_2j (il_bra i); fl_n (il_ket i); fl_l (il_ket i); fl_2j (il_ket i); il_J0 i]
  /\ fl_sp (il_bra i) = Some SP /\ fl_sp (il_ket i) = Some SP.
Definition as_neutrons (i : info_line) : info_line :=
  IL (FL (Some SN) (fl_n (il_bra i)) (fl_l (il_bra i)) (fl_2j (il_bra i))) (FL (Some SN) (fl_n (il_ket i)) (fl_l (il_ket i)) (fl_2j (il_ket i))) (il_J0 i).
Record info_1405_file (t : dtext) (J0_max n e : Z) (info : list info_line) : Prop := {
  i4_newline : snd t = true;
  i4_lines : exists l1 l2 l3 l4 ls more, with_words (fst t) = [l1; l2; l3; l4] ++ ls ++ more
    /\ ints l1 [1405%Z] /\ counts l2 [n] /\ ints l3 [J0_max] /\ counts l4 [e] /\ Forall2 info_line_1405 ls info;
  i4_count : Z.of_nat (length info) = e }.

(** ** Stored densities *)
(** bra, ket, multipole, value in the Rose convention *)
Definition element : Type := flab * flab * Z * R.
(** a density on the space [sp] with these elements, other elements are zero *)
Record density_of (sp : lspace) (a b g0 Tz0 : Z) (els : list element) (d : density) : Prop := {
  dn_ok : density_ok selection sp g0 Tz0 d;
  dn_located : Forall (fun e : element => let '(b', k, J0, v) := e in located selection sp a b g0 Tz0 b' k J0) els;
  dn_once : NoDup (map fst els);
  dn_min : de_min d = a; dn_max : de_max d = b;
  dn_value : forall b k J0 v P p Q q, In (b, k, J0, v) els -> carries sp b P p -> carries sp k Q q -> density_entry d J0 P p Q q = v;
  dn_zero : forall J0 P p Q q, (a <= J0 <= b)%Z -> (forall b k v, In (b, k, J0, v) els -> ~ (carries sp b P p /\ carries sp k Q q)) ->
    density_entry d J0 P p Q q = 0 }.

(** elements of a file of version 1520: orbitals by their numbers, value divided by sqrt(2j+1) of the bra *)
Definition elements_1520 (orbs : list flab) (ls : list data_line) : list element :=
  flat_map (fun l => match nth_error orbs (Z.to_nat (dl_a l - 1)), nth_error orbs (Z.to_nat (dl_b l - 1)) with
                     | Some a, Some b => [(a, b, dl_J0 l, dl_v l / sqrt (IZR (fl_2j a + 1)))]
                     | _, _ => []
                     end) ls.
(** change of the isospin projection *)
Definition Tz_change (bra ket : nstate) : Z := ((n_Z bra - n_N bra - (n_Z ket - n_N ket)) / 2)%Z.
Definition parity_change (bra ket : nstate) : Z := Z.rem (n_g bra + n_g ket) 2.
(** number of orbitals of a species *)
Definition orbitals_in (sp : wspace R) (s : ospecies) : Z :=
  Z.of_nat (length (filter (fun o => match ll_sp (oi_lab o), s with SP, SP | SN, SN => true | _, _ => false end) (orbital_info sp))).
(** elements of the two files: value times sqrt(4 pi), divided by sqrt(2j+1) of the bra *)
Definition elements_multi (info : list info_line) (vs : list R) : list element :=
  map (fun iv => (il_bra (fst iv), il_ket (fst iv), il_J0 (fst iv), snd iv * k_sqrt_4pi / sqrt (IZR (fl_2j (il_bra (fst iv)) + 1)))) (combine info vs).

(** ** The control file *)
Inductive ostatement : Type :=
| Output (file : string) (append : bool)
| Orbitals (file : string)
| Operator (name file : string)
| Densities (twoJf gf nf twoJi gi ni : Z) (data : string) (info : option string).
Local Open Scope string_scope.
(** 2J of a word: twice the number, without its fraction *)
Definition twice (x : R) (twoJ : Z) : Prop := IZR twoJ <= 2 * x < IZR twoJ + 1 /\ 0 <= x \/ IZR twoJ - 1 < 2 * x <= IZR twoJ /\ x < 0.
Inductive osays : cline -> ostatement -> Prop :=
| say_output : forall k f, w_text k = "set-output-file" -> osays (CLine [k; f] false) (Output (w_text f) false)
| say_output_mode : forall k f m rest bl append, w_text k = "set-output-file" -> (append = true <-> w_text m = "append") ->
    osays (CLine (k :: f :: m :: rest) bl) (Output (w_text f) append)
| say_orbitals : forall k f rest bl, w_text k = "set-indexing" -> osays (CLine (k :: f :: rest) bl) (Orbitals (w_text f))
| say_operator : forall k i f rest bl, w_text k = "define-operator" -> osays (CLine (k :: i :: f :: rest) bl) (Operator (w_text i) (w_text f))
| say_densities : forall k wJf wgf wnf wJi wgi wni f Jf Ji twoJf gf nf twoJi gi ni, w_text k = "define-densities" ->
    w_num wJf = Some Jf -> twice Jf twoJf -> w_int wgf = Some gf -> w_int wnf = Some nf ->
    w_num wJi = Some Ji -> twice Ji twoJi -> w_int wgi = Some gi -> w_int wni = Some ni ->
    osays (CLine [k; wJf; wgf; wnf; wJi; wgi; wni; f] false) (Densities twoJf gf nf twoJi gi ni (w_text f) None)
| say_densities_info : forall k wJf wgf wnf wJi wgi wni f i rest bl Jf Ji twoJf gf nf twoJi gi ni, w_text k = "define-densities" ->
    w_num wJf = Some Jf -> twice Jf twoJf -> w_int wgf = Some gf -> w_int wnf = Some nf ->
    w_num wJi = Some Ji -> twice Ji twoJi -> w_int wgi = Some gi -> w_int wni = Some ni ->
    osays (CLine (k :: wJf :: wgf :: wnf :: wJi :: wgi :: wni :: f :: i :: rest) bl) (Densities twoJf gf nf twoJi gi ni (w_text f) (Some (w_text i))).
Local Close Scope string_scope.
Definition last_output (sts : list ostatement) (o : string * bool) : Prop :=
  exists pre post, sts = pre ++ Output (fst o) (snd o) :: post /\ forall f a, ~ In (Output f a) post.
Definition last_orbitals (sts : list ostatement) (file : string) : Prop :=
  exists pre post, sts = pre ++ Orbitals file :: post /\ forall f, ~ In (Orbitals f) post.
Definition operators_in (sts : list ostatement) : list (string * string) :=
  flat_map (fun s => match s with Operator n f => [(n, f)] | _ => [] end) sts.
Definition is_densities (s : ostatement) : bool := match s with Densities _ _ _ _ _ _ _ _ => true | _ => false end.
Definition densities_in (sts : list ostatement) : list ostatement := filter is_densities sts.
(** no densities before the last statement that sets the orbitals *)
Definition orbitals_first (sts : list ostatement) (file : string) : Prop :=
  exists pre post, sts = pre ++ Orbitals file :: post /\ (forall f, ~ In (Orbitals f) post) /\ densities_in pre = [].

(** ** What is computed *)
(** an operator of rank J0, parity g0 and charge Tz0 with these elements between orbitals, in the Rose convention *)
Record oper : Type := Oper { o_name : string; o_q : qn; o_el : flab -> flab -> R }.
(** a density between two states: range of multipoles, change of isospin projection, elements *)
Record dens : Type := DensOf { d_bra : nstate; d_ket : nstate; d_min : Z; d_max : Z; d_Tz0 : Z; d_els : list element }.
Section Files.
Variable parse_orbitals : list dline -> outcome (list (oinfo R)).
Variable files : string -> option ocontents.
Variable sp : wspace R.
(** an operator on the space [sp] in a file *)
Definition operator_in (nf : string * string) (o : oper) : Prop :=
  exists f, files (snd nf) = Some (OElements f) /\ o_name o = fst nf /\ rf_bra f = sp /\ rf_ket f = sp /\ rf_q f = o_q o
  /\ rf_sectors f = ObmModel.sectors_of (forget sp) (forget sp) (o_q o) /\ op_ok (forget sp) (forget sp) (rf_sectors f) (rf_blocks f)
  /\ forall a b P p Q q, carries (forget sp) a P p -> carries (forget sp) b Q q -> entry (rf_sectors f) (rf_blocks f) P p Q q = o_el o a b.
(** an info file of either version: version, largest multipole, counts announced in the data file, elements *)
Inductive info_file (t : dtext) (J0_max : Z) : Z -> list Z -> list info_line -> Prop :=
| info_file_1500 : forall ep en info, info_1500_file t J0_max (orbitals_in sp SP) (orbitals_in sp SN) ep en info -> (0 <= ep)%Z -> (0 <= en)%Z ->
    info_file t J0_max 1500 [(ep + en)%Z] info
| info_file_1405 : forall e info, info_1405_file t J0_max (orbitals_in sp SP) e info -> orbitals_in sp SN = orbitals_in sp SP ->
    info_file t J0_max 1405 [e; e] (info ++ map as_neutrons info).
(** the files of a statement hold a density between states with the quantum numbers of the statement; in version 1520 the
    files hold the parities, in the others only the statement does *)
Inductive density_in : ostatement -> dens -> Prop :=
| in_single : forall bra ket a b orbl os data file t, files file = Some (OText t) ->
    single_file t bra ket a b (orbitals_in sp SP) (orbitals_in sp SN) orbl data ->
    parse_orbitals orbl = Ok os -> NoDup (map full_labels os) ->
    Z.even (n_Z bra - n_N bra - (n_Z ket - n_N ket)) = true -> Z.even (n_2M bra - n_2M ket) = true -> (a <= b + 1)%Z ->
    NoDup (map (fun l => (dl_a l, dl_b l, dl_J0 l)) data) ->
    (forall l, In l data -> (1 <= dl_a l)%Z /\ (1 <= dl_b l)%Z /\ exists oa ob, nth_error (map full_labels os) (Z.to_nat (dl_a l - 1)) = Some oa
       /\ nth_error (map full_labels os) (Z.to_nat (dl_b l - 1)) = Some ob
       /\ located selection (forget sp) a b (parity_change bra ket) (Tz_change bra ket) oa ob (dl_J0 l)) ->
    density_in (Densities (n_2J bra) (n_g bra) (n_n bra) (n_2J ket) (n_g ket) (n_n ket) file None)
      (DensOf bra ket a b (Tz_change bra ket) (elements_1520 (map full_labels os) data))
| in_multi : forall bra ket J0_max version announced info vs file ifile t ti, files file = Some (OText t) -> files ifile = Some (OText ti) ->
    info_file ti J0_max version announced info -> multi_data t version bra ket announced vs -> length vs = length info -> (-1 <= J0_max)%Z -> NoDup info ->
    Z.even (n_2M bra - n_2M ket) = true ->
    Forall (fun i => located selection (forget sp) 0 J0_max (parity_change bra ket) 0 (il_bra i) (il_ket i) (il_J0 i)) info ->
    density_in (Densities (n_2J bra) (n_g bra) (n_n bra) (n_2J ket) (n_g ket) (n_n ket) file (Some ifile))
      (DensOf bra ket 0 J0_max 0 (elements_multi info vs)).
End Files.

Section Values.
Variable w3j : Z -> Z -> Z -> Z -> Z -> Z -> R.
(** the selection rules, the 3j coefficient and the range of multipoles allow the element *)
Definition observed (o : oper) (d : dens) : Prop :=
  let '(J0, g0, Tz0) := o_q o in
  parity_change (d_bra d) (d_ket d) = g0 /\ d_Tz0 d = Tz0
  /\ (Z.abs (n_2J (d_bra d) - 2 * J0) <= n_2J (d_ket d) <= n_2J (d_bra d) + 2 * J0)%Z /\ Z.even (n_2J (d_bra d) + 2 * J0 + n_2J (d_ket d)) = true
  /\ / 10 ^ 8 <= Rabs (w3j (n_2J (d_bra d)) (2 * J0) (n_2J (d_ket d)) (- n_2M (d_bra d)) (n_2M (d_bra d) - n_2M (d_ket d)) (n_2M (d_ket d)))%Z
  /\ (d_min d <= J0 <= d_max d)%Z.
(** the reduced matrix element, in the Edmonds convention *)
Definition rme (o : oper) (d : dens) : R :=
  let '(J0, _, _) := o_q o in
  lsum (d_els d) (fun e : element => let '(a, b, J, v) := e in if (J =? J0)%Z then IZR (fl_2j a + 1) * o_el o a b * v else 0) / sqrt (IZR (2 * J0 + 1)).
Inductive lines_of (o : oper) : list dens -> list oline -> Prop :=
| no_densities : lines_of o [] []
| observed_line : forall d ds ls, observed o d -> lines_of o ds ls ->
    lines_of o (d :: ds) (OLine (n_2J (d_bra d)) (n_g (d_bra d)) (n_n (d_bra d)) (n_2J (d_ket d)) (n_g (d_ket d)) (n_n (d_ket d)) (rme o d) :: ls)
| no_line : forall d ds ls, ~ observed o d -> lines_of o ds ls -> lines_of o (d :: ds) ls.
(** operators for which there is a line, in order *)
Inductive report : list oper -> list dens -> list osection -> Prop :=
| no_operators : forall ds, report [] ds []
| a_section : forall o os ds ls ss, lines_of o ds ls -> ls <> [] -> report os ds ss -> report (o :: os) ds (OSection (o_q o) (o_name o) ls :: ss)
| no_section : forall o os ds ss, lines_of o ds [] -> report os ds ss -> report (o :: os) ds ss.
End Values.
