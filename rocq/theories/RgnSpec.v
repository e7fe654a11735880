(** Vocabulary for C146-C152: input and output of the programs for relative operators, independently of how they are computed. *)
From Coq Require Import String List ZArith Reals Bool.
From Verif Require Import Base RMat OscModel OscSpec BlockModel ObioModel MoshModel JpvModel JpvSpec IsoModel IsoSpec TrfModel TrfSpec RmeModel RmeSpec WfModel LenModel LenSpec LenProof RelxModel RelxSpec RgModel MosModel MosSpec RgnModel.
Import ListNotations.
Open Scope Z_scope.

(** * Input *)
Definition real_at (ls : list (list word)) (line place : nat) (x : R) : Prop :=
  exists l w, nth_error ls line = Some l /\ nth_error l place = Some w /\ w_num w = Some x.
Definition labels_mean (ls : list (list word)) (o : oplab) : Prop :=
  number_at ls 0 0 (o_J0 o) /\ number_at ls 0 1 (o_g0 o) /\ number_at ls 0 2 (o_T0_min o) /\ number_at ls 0 3 (o_T0_max o).
Definition coordinate_name (ct : coordinate_type) : string := match ct with KR => "r" | KK => "k" end.
Definition species_name (t : optype) : string := match t with OpP => "p" | OpN => "n" | OpTotal => "total" end.
Open Scope string_scope.
(** operators with parameters *)
Definition parametrised : list string :=
  ["orbital-am"; "spin-am"; "coordinate-sqr"; "dipole"; "quadrupole"; "coulomb"; "symmunit"; "interaction"; "LENPIC-N2LOGT"].
(** the third line: the name of the operator and its parameters *)
Definition args_mean (ls : list (list word)) (name : string) (a : gargs) : Prop :=
  match a with
  | ANone => ~ In name parametrised
  | AT0 T0 => In name ["orbital-am"; "spin-am"] /\ number_at ls 2 1 T0
  | ACoordinate ct T0 => In name ["coordinate-sqr"; "dipole"; "quadrupole"] /\ text_at ls 2 1 (coordinate_name ct) /\ number_at ls 2 2 T0
  | ACoulomb t steps => name = "coulomb" /\ text_at ls 2 1 (species_name t) /\ number_at ls 2 2 steps
  | AUnit u => name = "symmunit" /\ number_at ls 2 1 (u_T0 u)
      /\ number_at ls 2 2 (u_Np u) /\ number_at ls 2 3 (u_Lp u) /\ number_at ls 2 4 (u_Sp u) /\ number_at ls 2 5 (u_Jp u) /\ number_at ls 2 6 (u_Tp u)
      /\ number_at ls 2 7 (u_N u) /\ number_at ls 2 8 (u_L u) /\ number_at ls 2 9 (u_S u) /\ number_at ls 2 10 (u_J u) /\ number_at ls 2 11 (u_T u)
  | AInteraction which => name = "interaction" /\ text_at ls 2 1 which
  | AChiral reg b steps => name = "LENPIC-N2LOGT" /\ real_at ls 2 1 reg /\ real_at ls 2 2 b /\ number_at ls 2 3 steps
  end.
(** all angular momenta up to Nmax + 1, but not more than 6 for Daejeon16 *)
Definition Jmax_of (daejeon : bool) (Nmax : Z) (a : gargs) : Z :=
  match a with AInteraction which => if String.eqb which "Daejeon16" then (if daejeon then Z.min (Nmax + 1) 6 else Nmax + 1) else Nmax + 1 | _ => Nmax + 1 end.
(** four lines: tensor labels; Nmax; operator; target *)
Definition gen_input (daejeon : bool) (ls : list (list word)) (p : gparams) : Prop :=
  labels_mean ls (g_o p) /\ number_at ls 1 0 (g_Nmax p) /\ text_at ls 2 0 (g_name p) /\ args_mean ls (g_name p) (g_args p)
  /\ g_Jmax p = Jmax_of daejeon (g_Nmax p) (g_args p) /\ text_at ls 3 0 (g_target p).
(** relcm-gen *)
Definition cm_input (ls : list (list word)) (p : cparams) : Prop :=
  labels_mean ls (c_o p) /\ number_at ls 1 0 (c_Nmax p) /\ text_at ls 2 0 (c_name p) /\ text_at ls 3 0 (c_target p)
  /\ match c_args p with
     | None => c_name p <> "LENPIC-NLOM1"
     | Some (reg, b, steps) => c_name p = "LENPIC-NLOM1" /\ real_at ls 2 1 reg /\ real_at ls 2 2 b /\ number_at ls 2 3 steps
     end.
Close Scope string_scope.
(** relative-xform: source, which must exist; Nmax, ratio of lengths and number of steps; target *)
Definition xf_input (exists_ : string -> bool) (ls : list (list word)) (p : xparams) : Prop :=
  text_at ls 0 0 (x_source p) /\ exists_ (x_source p) = true /\ number_at ls 1 0 (x_Nmax p) /\ real_at ls 1 1 (x_ratio p) /\ number_at ls 1 2 (x_steps p)
  /\ text_at ls 2 0 (x_target p).
(** jpv2rel: Nmax, Jmax and the highest isospin component; one source, or those for pp, nn and pn; target *)
Definition jpv_input (ls : list (list word)) (p : jparams) : Prop :=
  number_at ls 0 0 (j_Nmax p) /\ number_at ls 0 1 (j_Jmax p) /\ number_at ls 0 2 (j_T0_max p) /\ text_at ls 2 0 (j_target p)
  /\ ((j_T0_max p = 0 /\ exists f, j_sources p = [f] /\ text_at ls 1 0 f)
      \/ (j_T0_max p = 2 /\ exists pp nn pn, j_sources p = [pp; nn; pn] /\ text_at ls 1 0 pp /\ text_at ls 1 1 nn /\ text_at ls 1 2 pn)).

(** * Operators *)
Definition element : Type := Z -> rlab -> Z -> rlab -> Z -> R.
Definition no_element : element := fun _ _ _ _ _ => 0%R.
(** (1 or tau1 + tau2) times r^2, or minus k^2, of the relative motion for b_rel = sqrt 2; the sign is that of the convention for reduced elements of k *)
Definition sqr_rme (ct : coordinate_type) (t : Z) : element := fun T0 x N' y N =>
  let '(L', s', J', T') := x in let '(L, s, J, T) := y in
  same ((T0 =? t) && (L' =? L) && (s' =? s) && (T' =? T))
    (generator t T * (match ct with KR => 2 | KK => 1 / 2 end * val (coordinate_sqr N' L N L (match ct with KR => 1 | KK => -1 end)%Z)))%R.
(** components of the operator that is one for a species of nucleon only, between two nucleons *)
Definition species_part (t : optype) (T0 T : Z) : R :=
  match t with
  | OpTotal => if T0 =? 0 then 1%R else 0%R
  | OpP | OpN =>
    if T =? 1 then
      if T0 =? 0 then (1 / 3)%R else if T0 =? 1 then (match t with OpN => - (1 / sqrt 2) | _ => 1 / sqrt 2 end)%R else if T0 =? 2 then (sqrt 10 / 6)%R else 0%R
    else 0%R
  end.
Definition coulomb_rme (inverse_r : Z -> Z -> Z -> R) (t : optype) : element := fun T0 x N' y N =>
  let '(L', _, _, _) := x in let '(L, _, _, T) := y in
  if rlab_eqb x y then (species_part t T0 T * (1 / sqrt 2 * inverse_r ((N' - L) / 2)%Z ((N - L) / 2)%Z L))%R else 0%R.
(** labels of an operator component, one radial state each, which the sectors of the upper triangle have *)
Definition unit_place (sp : rspace) (o : oplab) (u : unit_labels) : Prop :=
  in_range o (u_T0 u) /\ exists ib ik b k i j, nth_error sp ib = Some b /\ nth_error sp ik = Some k /\ rl b = (u_Lp u, u_Sp u, u_Jp u, u_Tp u) /\ rl k = (u_L u, u_S u, u_J u, u_T u)
  /\ jt_rule (o_J0 o) (u_T0 u) (o_g0 o) (r_J b) (r_T b) (r_g b) (r_J k) (r_T k) (r_g k)
  /\ (i < r_dim b)%nat /\ (j < r_dim k)%nat /\ u_Np u = u_Lp u + 2 * Z.of_nat i /\ u_N u = u_L u + 2 * Z.of_nat j
  /\ ((ib < ik)%nat \/ ib = ik /\ (i <= j)%nat).

Section Made.
Variable racah1 racah2 : Z -> Z -> Z -> Z -> Z -> Z -> Z -> R.
Variable w3j w6j : Z -> Z -> Z -> Z -> Z -> Z -> R.
Variable tgamma : R -> R.
Variable quad : list R -> list fl -> num.
Variable racah12 : Z -> Z -> Z -> Z -> Z -> Z -> Z -> Z -> Z -> R.
Variable crme : Z -> Z -> Z -> R.
Variable inverse_r : Z -> Z -> Z -> Z -> R.
(** [made sp name args o F]: the operator named, with its parameters, has the elements F and can be a tensor of the labels o *)
Inductive made (sp : rspace) : string -> gargs -> oplab -> element -> Prop :=
| MZero : forall o, made sp "zero" ANone o no_element
| MIdentity : forall o, o_J0 o = 0 -> o_g0 o = 0 -> in_range o 0 -> made sp "identity" ANone o id_rel
| MRsqr : forall o, o_J0 o = 0 -> o_g0 o = 0 -> in_range o 0 -> made sp "rsqr" ANone o (sqr_rme KR 0)
| MKsqr : forall o, o_J0 o = 0 -> o_g0 o = 0 -> in_range o 0 -> made sp "ksqr" ANone o (sqr_rme KK 0)
| MSqr : forall o ct T0, o_J0 o = 0 -> o_g0 o = 0 -> T0 = 0 \/ T0 = 1 -> in_range o T0 -> made sp "coordinate-sqr" (ACoordinate ct T0) o (sqr_rme ct T0)
| MDipole : forall o ct, o_J0 o = 1 -> o_g0 o = 1 -> in_range o 1 -> made sp "dipole" (ACoordinate ct 1) o (dipole_rme racah1 racah2 code_direction (code_radial ct))
| MQuadrupole : forall o T0, o_J0 o = 2 -> o_g0 o = 0 -> T0 = 0 \/ T0 = 1 -> in_range o T0 -> made sp "quadrupole" (ACoordinate KR T0) o (quadrupole_rme w3j w6j T0)
| MOrbital : forall o T0, o_J0 o = 1 -> o_g0 o = 0 -> T0 = 0 \/ T0 = 1 -> in_range o T0 -> made sp "orbital-am" (AT0 T0) o (orbital_rme racah1 T0)
| MSpin : forall o T0, o_J0 o = 1 -> o_g0 o = 0 -> T0 = 0 \/ T0 = 1 -> in_range o T0 -> made sp "spin-am" (AT0 T0) o (spin_rme racah1 racah2 T0)
| MIsospin : forall o, o_J0 o = 0 -> o_g0 o = 0 -> in_range o 1 -> made sp "isospin" ANone o isospin_rme
| MSU4 : forall o, o_J0 o = 0 -> o_g0 o = 0 -> o_T0_min o = 0 -> in_range o 0 -> made sp "su4casimir" ANone o su4_rme
| MCoulomb : forall o t steps, o_J0 o = 0 -> o_g0 o = 0 -> made sp "coulomb" (ACoulomb t steps) o (coulomb_rme (inverse_r steps) t)
| MUnit : forall o u, unit_place sp o u -> made sp "symmunit" (AUnit u) o (unit_element u)
| MLeading : forall o, o_J0 o = 1 -> o_g0 o = 0 -> in_range o 1 ->
    made sp "LENPIC-LOGT" ANone o (fun T0 x N' y N => - (129 / 100) * spin_rme racah1 racah2 1 T0 x N' y N)%R
| MChiral : forall o reg b steps, o_J0 o = 1 -> o_g0 o = 0 -> in_range o 1 -> known_range reg -> (0 < b)%R -> 1 < steps ->
    made sp "LENPIC-N2LOGT" (AChiral reg b steps) o (gt_values tgamma quad racah1 racah2 racah12 crme b reg (Z.to_nat steps)).
End Made.
(** the identity of module basis *)
Definition identity_ok (B : rellib) : Prop := forall o sp, o_J0 o = 0 -> o_g0 o = 0 -> in_range o 0 -> 0 <= o_T0_min o -> o_T0_max o <= 2 ->
  exists c, identity_of B o sp = Ok c /\ stores_num sp o c id_rel.
(** operators of relative-gen *)
Open Scope string_scope.
Definition gen_names : list string :=
  ["zero"; "identity"; "rsqr"; "ksqr"; "coordinate-sqr"; "dipole"; "quadrupole"; "orbital-am"; "spin-am"; "isospin"; "su4casimir"; "coulomb"; "symmunit";
   "interaction"; "LENPIC-LOGT"; "LENPIC-N2LOGT"].
(** tensors which the operator can be *)
Definition suits (name : string) (a : gargs) (o : oplab) : Prop :=
  let scalar := o_J0 o = 0 /\ o_g0 o = 0 in
  let axial := o_J0 o = 1 /\ o_g0 o = 0 in
  (In name ["rsqr"; "ksqr"] -> scalar /\ in_range o 0)
  /\ (name = "coordinate-sqr" -> exists ct T0, a = ACoordinate ct T0 /\ scalar /\ (T0 = 0 \/ T0 = 1) /\ in_range o T0)
  /\ (name = "dipole" -> exists ct, a = ACoordinate ct 1 /\ o_J0 o = 1 /\ o_g0 o = 1 /\ in_range o 1)
  /\ (name = "quadrupole" -> exists T0, a = ACoordinate KR T0 /\ o_J0 o = 2 /\ o_g0 o = 0 /\ (T0 = 0 \/ T0 = 1) /\ in_range o T0)
  /\ (In name ["orbital-am"; "spin-am"] -> exists T0, a = AT0 T0 /\ axial /\ (T0 = 0 \/ T0 = 1) /\ in_range o T0)
  /\ (name = "isospin" -> scalar /\ in_range o 1)
  /\ (name = "su4casimir" -> scalar /\ o_T0_min o = 0 /\ in_range o 0)
  /\ (name = "coulomb" -> scalar)
  /\ (In name ["LENPIC-LOGT"; "LENPIC-N2LOGT"] -> axial /\ in_range o 1).
Close Scope string_scope.

(** * Files *)
(** a relative operator in memory: components 0 to 2, each with the sectors of the upper triangle and nothing else; [F] are the elements of
    the upper triangle *)
Definition held (sp : rspace) (o : oplab) (c : components) (F : element) : Prop :=
  length c = 3%nat /\
  forall T0, 0 <= T0 <= 2 -> exists sectors ms, nth_error c (Z.to_nat T0) = Some (sectors, ms) /\ NoDup sectors /\ length ms = length sectors
  /\ (forall i k, In (i, k) sectors <-> in_range o T0 /\ (i <= k)%nat /\ exists x y, nth_error sp i = Some x /\ nth_error sp k = Some y
        /\ jt_rule (o_J0 o) T0 (o_g0 o) (r_J x) (r_T x) (r_g x) (r_J y) (r_T y) (r_g y))
  /\ (forall q i k x y, nth_error sectors q = Some (i, k) -> nth_error sp i = Some x -> nth_error sp k = Some y ->
        exists m, nth_error ms q = Some m /\ rows m = r_dim x /\ cols m = r_dim y
        /\ forall u v, (u < r_dim x)%nat -> (v < r_dim y)%nat -> (i < k)%nat \/ (u <= v)%nat ->
           at_ m u v = F T0 (rl x) (r_L x + 2 * Z.of_nat u) (rl y) (r_L y + 2 * Z.of_nat v)).
(** relative space: all subspaces up to Nmax and Jmax, and no others *)
Definition rel_space (Nmax Jmax : Z) (sp : rspace) : Prop := rel_complete (Rel sp Nmax Jmax) /\ rme_space Nmax sp /\ forall x, In x sp -> r_J x <= Jmax.
(** the order of the subspaces in common is the same *)
Definition in_order (src tgt : rspace) : Prop :=
  forall i i' t t', same_labels src tgt i t -> same_labels src tgt i' t' -> (t <= t')%nat -> (i <= i')%nat.
(** change of the oscillator length, from the states up to Nmax quanta; [O L n n'] is the overlap of function n of the first length and n' of the second *)
Definition radial_count (Nmax L : Z) : nat := Z.to_nat ((Nmax - L) / 2 + 1).
Definition lab_L (x : rlab) : Z := let '(L, _, _, _) := x in L.
Definition xform_rme (O : Z -> nat -> nat -> R) (Nmax : Z) (F : element) : element := fun T0 x N' y N =>
  rsum (radial_count Nmax (lab_L x)) (fun i => rsum (radial_count Nmax (lab_L y)) (fun j =>
    O (lab_L x) i (Z.to_nat ((N' - lab_L x) / 2)) * F T0 x (lab_L x + 2 * Z.of_nat i)%Z y (lab_L y + 2 * Z.of_nat j)%Z * O (lab_L y) j (Z.to_nat ((N - lab_L y) / 2))))%R.
(** nothing but the elements between states up to Nmax quanta *)
Definition up_to (Nmax : Z) (F : element) : element := fun T0 x N' y N => if (N' <=? Nmax) && (N <=? Nmax) then F T0 x N' y N else 0%R.
(** exchange of states of the same subspace *)
Definition symmetric_within (F : element) : Prop := forall T0 x n m, F T0 x n x m = F T0 x m x n.
(** an interaction by its matrix elements between radial states of given J, S and L *)
Definition potential : Type := Z -> Z -> Z -> nat -> Z -> nat -> R.
Definition potential_at (V : potential) (x : rlab) (N' : Z) (y : rlab) (N : Z) : R :=
  let '(L', s', J', T') := x in let '(L, s, J, T) := y in V J s L' (Z.to_nat ((N' - L') / 2)) L (Z.to_nat ((N - L) / 2)).
Definition same_pair (x y : rlab) : bool := let '(_, s', J', T') := x in let '(_, s, J, T) := y in (s' =? s) && (J' =? J) && (T' =? T).
Definition isoscalar_rme (V : potential) : element := fun T0 x N' y N => if (T0 =? 0) && same_pair x y then potential_at V x N' y N else 0%R.
(** isospin component T0 of an interaction given for each Tz: between states of T=1 by the orthogonality of Clebsch-Gordan coefficients *)
Definition isospin_component (V : Z -> R) (T0 : Z) : R :=
  (IZR (2 * T0 + 1) / 3 * lsum [1; 0; -1]%Z (fun Tz => cg 1 Tz T0 0 1 Tz * V Tz))%R.
Definition species_rme (V : Z -> potential) : element := fun T0 x N' y N =>
  if same_pair x y then
    let '(_, _, _, T) := y in
    if T =? 1 then isospin_component (fun Tz => potential_at (V Tz) x N' y N) T0 else if (T =? 0) && (T0 =? 0) then potential_at (V 0) x N' y N else 0%R
  else 0%R.
(** a block of the file is between the subspaces i and k of the space *)
Definition block_between (sp : rspace) (Jmax : Z) (b : jblock) (i k : nat) : Prop :=
  0 <= jb_S b /\ 0 <= jb_first b /\ 0 <= jb_second b /\ (jb_first b + jb_second b) mod 2 = 0 /\ jb_J b <= Jmax /\ (i <= k)%nat
  /\ exists x y, nth_error sp i = Some x /\ nth_error sp k = Some y
  /\ sub_for (jb_S b) (jb_J b) (Z.min (jb_first b) (jb_second b)) x /\ sub_for (jb_S b) (jb_J b) (Z.max (jb_first b) (jb_second b)) y.
(** a file of the interaction V: blocks, fewer than [depth], written from V, of which some gives each element of the upper triangle *)
Definition interaction_file (depth : nat) (sp : rspace) (Jmax : Z) (V : potential) (file : textfile) : Prop :=
  exists (bs : list (jblock * (nat * nat))) texts stop tail nl, file = (concat texts ++ (TInt 99999 :: stop) :: tail, nl)
  /\ Forall2 (fun p t => block_text (fst p) t /\ block_between sp Jmax (fst p) (fst (snd p)) (snd (snd p))) bs texts
  /\ (length bs < depth)%nat /\ Forall (fun p => written_from (V (jb_J (fst p)) (jb_S (fst p))) (fst p)) bs
  /\ (forall i k x y u v, (i <= k)%nat -> nth_error sp i = Some x -> nth_error sp k = Some y -> jt_rule 0 0 0 (r_J x) (r_T x) (r_g x) (r_J y) (r_T y) (r_g y) ->
       (u < r_dim x)%nat -> (v < r_dim y)%nat -> (i < k)%nat \/ (u <= v)%nat -> exists p, In p bs /\ snd p = (i, k) /\ gives (fst p) u v <> None).
(** what is written is what is read by moshinsky *)
Definition reads_back (B : rellib) (M : basislib) (name : string) (f : relfile components) : Prop :=
  let rs := Rel (space_of B (rf_Nmax f) (rf_Jmax f)) (rf_Nmax f) (rf_Jmax f) in
  exists c, read_rel M name = Ok (rf_o f, rs, c) /\ forall F, stores_rel rs (rf_o f) (rf_c f) F -> stores_rel rs (rf_o f) c F.
Definition reads_back_num (B : rellib) (M : basislib) (name : string) (f : relfile ncomponents) : Prop :=
  let rs := Rel (space_of B (rf_Nmax f) (rf_Jmax f)) (rf_Nmax f) (rf_Jmax f) in
  exists c, read_rel M name = Ok (rf_o f, rs, c) /\ forall F, stores_num (rel_subs rs) (rf_o f) (rf_c f) F -> stores_rel rs (rf_o f) c F.
(** moshinsky can do its part: the input asks for matrix elements between nucleons, and the spaces are suitable *)
Definition ready (M : basislib) (flip : Z -> Z -> Z -> Z -> Z -> R) (o : oplab) (Nmax : Z) (p : mparams) (pn : list psub) : Prop :=
  m_from p = KRel /\ m_to p = KJjjpn
  /\ (let cm := cm_of M (quanta_max (m_rank p) (m_cutoff p)) in Forall (fun x => b_N (fst x) <= Nmax) cm /\ spaces_ok M cm (m_rank p) (m_cutoff p))
  /\ jj_spaces_ok flip M o (m_rank p) (m_cutoff p) /\ pn_spaces_ok M o (m_rank p) (m_cutoff p) (m_format p) (m_Tz0 p) pn /\ can_write M (m_target p) = true /\ 0 <= m_Tz0 p.
(** scalar operators that are hermitian whatever the coefficients, and the elements of a scalar operator: between states of the same J *)
Definition scalar_names : list string := ["zero"; "identity"; "rsqr"; "ksqr"; "coordinate-sqr"; "isospin"; "su4casimir"; "coulomb"]%string.
Definition is_ho (N l : Z) : bool := (0 <=? l) && (l <=? N) && Z.even (N - l).
Definition scalar_of (F : element) : element := fun T0 x N' y N => if (rl_J x =? rl_J y) && is_ho N' (lab_L x) && is_ho N (lab_L y) then F T0 x N' y N else 0%R.
(** what relative-gen stores: the upper triangle.  [completes flip sp F G]: G is hermitian, with the phases and factors [flip] of moshinsky, and has the elements of F
    in the upper triangle *)
Definition completes (flip : Z -> Z -> Z -> Z -> Z -> R) (sp : rspace) (F G : element) : Prop :=
  hermitian_rel flip G
  /\ forall T0 i k x y u v, (i <= k)%nat -> nth_error sp i = Some x -> nth_error sp k = Some y -> (u < r_dim x)%nat -> (v < r_dim y)%nat -> (i < k)%nat \/ (u <= v)%nat ->
     G T0 (rl x) (r_L x + 2 * Z.of_nat u) (rl y) (r_L y + 2 * Z.of_nat v) = F T0 (rl x) (r_L x + 2 * Z.of_nat u) (rl y) (r_L y + 2 * Z.of_nat v).
(** the same elements between the states of the space *)
Definition same_on (sp : rspace) (F G : element) : Prop := forall T0 x y u v, In x sp -> In y sp -> (u < r_dim x)%nat -> (v < r_dim y)%nat ->
  G T0 (rl x) (r_L x + 2 * Z.of_nat u) (rl y) (r_L y + 2 * Z.of_nat v) = F T0 (rl x) (r_L x + 2 * Z.of_nat u) (rl y) (r_L y + 2 * Z.of_nat v).
(** exchange of bra and ket of reduced elements in the convention of Rose, where hat J is sqrt (2 J + 1) *)
Definition rose_swap (J J' : Z) : R := (sign_of (J - J') * (sqrt (IZR (2 * J' + 1)) / sqrt (IZR (2 * J + 1))))%R.
Definition rose_flip (flip : Z -> Z -> Z -> Z -> Z -> R) : Prop := forall T0 J T J' T', 0 <= J -> 0 <= T -> 0 <= J' -> 0 <= T' ->
  flip T0 J T J' T' = (rose_swap J J' * rose_swap T T')%R.
(** symmetries of the coefficients (arguments of [racah1], [racah2] doubled): an operator on one of two coupled systems is hermitian *)
Section Exchange.
Variable racah1 racah2 : Z -> Z -> Z -> Z -> Z -> Z -> Z -> R.
Variable racah12 : Z -> Z -> Z -> Z -> Z -> Z -> Z -> Z -> Z -> R.
Variable crme : Z -> Z -> Z -> R.
Definition exchange1 : Prop := forall L s J L' J', 0 <= L -> 0 <= s -> 0 <= J -> 0 <= L' -> 0 <= J' ->
  (racah1 (2 * L) (2 * s) (2 * J) (2 * L') (2 * s) (2 * J') 2 * rose_swap L L' = rose_swap J J' * racah1 (2 * L') (2 * s) (2 * J') (2 * L) (2 * s) (2 * J) 2)%R.
Definition exchange2 : Prop := forall L s J s' J', 0 <= L -> 0 <= s -> 0 <= J -> 0 <= s' -> 0 <= J' ->
  (racah2 (2 * L) (2 * s) (2 * J) (2 * L) (2 * s') (2 * J') 2 * rose_swap s s' = rose_swap J J' * racah2 (2 * L) (2 * s') (2 * J') (2 * L) (2 * s) (2 * J) 2)%R.
(** operators on both systems: ranks 2 and 1 coupled to 1, and, with the other sign, 1 and 1 coupled to 1 for two spins 1/2; the spherical harmonic of rank 2 *)
Definition exchange12 : Prop :=
  (forall L s J L' s' J', 0 <= L -> 0 <= s -> 0 <= J -> 0 <= L' -> 0 <= s' -> 0 <= J' ->
   (racah12 (2 * L) (2 * s) (2 * J) (2 * L') (2 * s') (2 * J') 4 2 2 * (rose_swap L L' * rose_swap s s') = rose_swap J J' * racah12 (2 * L') (2 * s') (2 * J') (2 * L) (2 * s) (2 * J) 4 2 2)%R)
  /\ (forall s s', 0 <= s <= 1 -> 0 <= s' <= 1 -> racah12 1 1 (2 * s) 1 1 (2 * s') 2 2 2 = (- (rose_swap s s' * racah12 1 1 (2 * s') 1 1 (2 * s) 2 2 2))%R)
  /\ (forall L L', 0 <= L -> 0 <= L' -> crme L L' 2 = (rose_swap L L' * crme L' L 2)%R).
End Exchange.
Definition exchange_w (w3j w6j : Z -> Z -> Z -> Z -> Z -> Z -> R) : Prop :=
  (forall a b c, w3j a b c 0 0 0 = w3j c b a 0 0 0) /\ (forall a b c d e f, w6j a b c d e f = w6j e d c b a f).
(** tensor operators that are hermitian *)
Definition tensor_names : list string := ["orbital-am"; "spin-am"; "quadrupole"; "LENPIC-LOGT"; "LENPIC-N2LOGT"]%string.
