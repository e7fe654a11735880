(** libraries/relative/lenpic_constants.h, lenpic_relative_me.cpp (Gamow-Teller operators) and lenpic_relcm_me.cpp (NLO M1 operator), and their use in
    programs/relutils/relative-gen.cpp and relcm-gen.cpp.

    Simplifications: doubles on the mesh as in WfModel.v, numbers after integration as in RmeModel.v (spline::CubicIntegrate, not in the repository, is a
    parameter which gives a number or not-a-number).  Coefficients of module am (not in the repository) are parameters, of twice the angular momenta.
    pi is the real number.  Exceptions that nobody catches are Exit.  Sectors are independent of each other, so the parallel loop is a loop. *)
From Coq Require Import List ZArith Reals Bool String.
From Verif Require Import Base RMat OscModel BlockModel MoshModel JpvModel IsoModel TrfModel RmeModel WfModel.
Import ListNotations.
Open Scope R_scope.
Open Scope outcome_scope.

(** * lenpic_constants.h:56-161 *)
Definition hbarc : R := 1973269804 / 10000000.
Definition pion_mass_fm : R := 13803 / 100 / hbarc.
Definition proton_mass_MeV : R := 938272 / 1000.
Definition neutron_mass_MeV : R := 939565 / 1000.
Definition nucleon_mass_fm : R := (proton_mass_MeV + neutron_mass_MeV) / 2 / hbarc.
Definition pion_decay_constant_fm : R := 924 / 10 / hbarc.
Definition gA : R := 129 / 100.
Definition chiral_breaking_scale_fm : R := 700 / hbarc.
Definition c3_fm : R := - (469 / 100) * (hbarc / 1000).
Definition c4_fm : R := 340 / 100 * (hbarc / 1000).
(** :123-130 SCS_cD, throws for other regulators *)
Definition scs_cD (reg : R) : outcome R :=
  if Rlt_dec (Rabs (reg - 9 / 10)) (1 / 10000) then Ok (21 / 10) else if Rlt_dec (Rabs (reg - 1)) (1 / 10000) then Ok (72 / 10) else Exit.
(** :131-136 SCS_D_fm3 *)
Definition scs_D (reg : R) : outcome R := c <- scs_cD reg ;; Ok (c / (pion_decay_constant_fm * pion_decay_constant_fm * chiral_breaking_scale_fm)).

(** * Grids *)
Section Grid.
Variables (npts : nat) (b reg : R).
(** lenpic_relative_me.cpp:148-155, lenpic_relcm_me.cpp:93-98 *)
Definition b_rel : R := b * sqrt 2.
Definition z_grid : list R := uniform_mesh npts.
Definition r_grid : list fl := map (transformed true b_rel) z_grid.
Definition jacobian_grid : list fl := map (jacobian true b_rel) z_grid.
(** exp(- M_pi r), lenpic_relative_me.cpp:157, lenpic_relcm_me.cpp:99 *)
Definition exp_grid : list fl := map (fun r => fexp (fmul (Fin (- pion_mass_fm)) r)) r_grid.
(** lenpic_relative_me.cpp:159-163 *)
Definition w_grid : list fl :=
  map (fun r => fadd (Fin 1) (fdiv (fmul (Fin 3) (fadd (Fin 1) (fmul (Fin pion_mass_fm) r))) (fmul (fmul (fmul (Fin pion_mass_fm) (Fin pion_mass_fm)) r) r))) r_grid.
(** lenpic_relative_me.cpp:165-168, lenpic_relcm_me.cpp:100-103 *)
Definition local_grid : list fl :=
  if Req_EM_T reg 0 then map (fun _ => Fin 1) z_grid
  else map (fun r => fpow (fsub (Fin 1) (fexp (fdiv (fmul (fneg r) r) (Fin (reg * reg))))) 6) r_grid.
(** lenpic_relative_me.cpp:170-175 *)
Definition nonlocal_grid : list fl :=
  if Req_EM_T reg 0 then map (fun i => Fin (if Nat.eqb i 0 then 1 else 0)) (seq 0 npts)
  else map (fun r => fdiv (fexp (fdiv (fmul (fneg r) r) (Fin (reg * reg)))) (fpow (Fin (PI * reg * reg)) (3 / 2))) r_grid.
End Grid.
Definition times (a b : list fl) : list fl := zip2 fmul a b.

Section Lenpic.
Variable tgamma : R -> R.
(** spline::CubicIntegrate(z, values) *)
Variable quad : list R -> list fl -> num.
(** am::RacahReductionFactor1Rose, RacahReductionFactor2Rose (J1',J2',J',J1,J2,J,J0), RacahReductionFactor12Rose (..., J10,J20,J0) *)
Variable racah1 racah2 : Z -> Z -> Z -> Z -> Z -> Z -> Z -> R.
Variable racah12 : Z -> Z -> Z -> Z -> Z -> Z -> Z -> Z -> Z -> R.
(** am::SphericalHarmonicCRME(L',L,k) *)
Variable crme : Z -> Z -> Z -> R.
(** am::AngularMomentumJRME(1/2,1/2) *)
Variable jhalf : R.
(** am::jjJCoupledAngularMomentumJ1RME(1/2,1/2,S',1/2,1/2,S), ...J2RME *)
Variable cj1 cj2 : Z -> Z -> R.

(** psi_{l,n} r^shift on the mesh: lenpic_relative_me.cpp:177-192, lenpic_relcm_me.cpp:109-128; the functions exist for l = 0, ..., Nmax *)
Definition osc_grid (Nmax : Z) (npts : nat) (b shift : R) (l : Z) (n : nat) : outcome (list fl) :=
  if (l <? 0)%Z || (Nmax <? l)%Z then UB
  else get (nth_error (wave_functions tgamma true (Z.quot (Nmax - l) 2) l (b_rel b) (r_grid npts b) shift) n).
(** integral with the test for not-a-number *)
Definition integrate (npts : nat) (values : list fl) : outcome R :=
  v <- fix_endpoints values ;;
  match quad (z_grid npts) v with Num x => Ok x | OscModel.NaN => Exit end.

(** spins and isospins index arrays of two *)
Definition index01 (s : Z) : outcome unit := if (s =? 0)%Z || (s =? 1)%Z then Ok tt else UB.
(** kSpinFactors, lenpic_relative_me.cpp:84-101, lenpic_relcm_me.cpp:49-66 *)
Definition spin_factors (Sb Sk S0 : Z) : R :=
  if allowed_triangle Sb Sk S0 then racah12 1 1 (2 * Sb) 1 1 (2 * Sk) 2 2 (2 * S0) * 2 * jhalf * 2 * jhalf else 0.
(** kSU4Factors, lenpic_relative_me.cpp:109-125 *)
Definition su4_factors (Sb Sk Tb Tk : Z) : R :=
  if allowed_triangle Sb Sk 1 && allowed_triangle Tb Tk 1
  then 2 * cj1 Sb Sk * 2 * cj1 Tb Tk + 2 * cj2 Sb Sk * 2 * cj2 Tb Tk else 0.

(** * Gamow-Teller *)
(** lenpic_relative_me.cpp:73-77 *)
Definition opep_prefactor : R := gA * pion_mass_fm ^ 3 / (12 * PI * pion_decay_constant_fm ^ 2).
(** lenpic_relative_me.cpp:252-336, one element *)
Definition gt_element (Nmax : Z) (npts : nat) (b reg contact : R) (Lb Lk : Z) (su4 spiniso c2su4 c2spiniso : R) (nb nk : nat) : outcome num :=
  wb <- osc_grid Nmax npts b (- (1 / 2)) Lb nb ;; wk <- osc_grid Nmax npts b (- (1 / 2)) Lk nk ;;
  y <- integrate npts (times (times (times (times wb (exp_grid npts b)) wk) (local_grid npts b reg)) (jacobian_grid npts b)) ;;
  w <- integrate npts (times (times (times (times (times wb (exp_grid npts b)) (w_grid npts b)) wk) (local_grid npts b reg)) (jacobian_grid npts b)) ;;
  nl <- (if (Lb =? Lk)%Z then
           ob <- osc_grid Nmax npts b 0 Lb nb ;; ok <- osc_grid Nmax npts b 0 Lk nk ;;
           ib <- integrate npts (times (times ob (nonlocal_grid npts b reg)) (jacobian_grid npts b)) ;;
           ik <- integrate npts (times (times ok (nonlocal_grid npts b reg)) (jacobian_grid npts b)) ;;
           Ok (ib * ik)
         else Ok 0) ;;
  Ok (Num (opep_prefactor * (y / pion_mass_fm) * (- c3_fm * su4 + 2 * c4_fm * spiniso)
           + opep_prefactor * sqrt 10 * (w / pion_mass_fm) * (c3_fm * c2su4 + c4_fm * c2spiniso)
           + contact * su4 * nl)).
(** lenpic_relative_me.cpp:214-340, one sector *)
Definition gt_block (Nmax : Z) (npts : nat) (b reg contact : R) (x y : rsub) : outcome (mat num) :=
  if negb ((r_L x =? r_L y)%Z || allowed_triangle (r_L x) (r_L y) 2) then Ok (zero_block x y)
  else if negb (allowed_triangle (r_S x) (r_S y) 1 && allowed_triangle (r_T x) (r_T y) 1) then Ok (zero_block x y)
  else
    index01 (r_S x) ;;; index01 (r_S y) ;;; index01 (r_T x) ;;; index01 (r_T y) ;;;
    let c2 := if allowed_triangle (r_L x) (r_L y) 2 then crme (r_L x) (r_L y) 2 else 0 in
    let f2 := racah2 (2 * r_L x) (2 * r_S x) (2 * r_J x) (2 * r_L y) (2 * r_S y) (2 * r_J y) 2 in
    let f12 := racah12 (2 * r_L x) (2 * r_S x) (2 * r_J x) (2 * r_L y) (2 * r_S y) (2 * r_J y) 4 2 2 in
    let g := su4_factors (r_S x) (r_S y) (r_T x) (r_T y) in
    let p := spin_factors (r_S x) (r_S y) 1 in
    let q := spin_factors (r_T x) (r_T y) 1 in
    fill (Num 0) (r_dim x) (r_dim y) (fun i j =>
      gt_element Nmax npts b reg contact (r_L x) (r_L y) (f2 * g) (f2 * p * q) (f12 * c2 * g) (f12 * c2 * p * q) i j).
(** lenpic_relative_me.cpp:58-344 ConstructN2LOGTOperator *)
Definition n2lo_gt (o : oplab) (Nmax : Z) (sp : rspace) (reg b : R) (npts : nat) : outcome ncomponents :=
  d <- scs_D reg ;;
  check (((o_J0 o =? 1) && (o_g0 o =? 0) && (o_T0_min o <=? 1) && (1 <=? o_T0_max o))%Z) ;;;
  with_component o sp 1 (gt_block Nmax npts b reg (- d / 4)).
(** basis::ScalarMultiplyOperator: every block of component T0 is multiplied *)
Definition scalar_multiply (c : ncomponents) (T0 : Z) (f : R) : outcome ncomponents :=
  ' (s, ms) <- at_z c T0 ;; store c (Z.to_nat T0) (s, map (mat_scale f) ms).
(** lenpic_relative_me.cpp:34-52 ConstructLOGTOperator *)
Definition lo_gt (o : oplab) (sp : rspace) : outcome ncomponents :=
  c <- spin_am racah1 racah2 o sp 1 ;; scalar_multiply c 1 (- gA).
(** relative-gen.cpp:304-310, 563-577; a negative number of points is too large a std::size_t *)
Definition relative_gen_gt (o : oplab) (Nmax : Z) (sp : rspace) (reg b : R) (num_steps : Z) : outcome ncomponents :=
  if (num_steps <? 0)%Z then Exit else n2lo_gt o Nmax sp reg b (Z.to_nat num_steps).

(** * NLO M1 *)
(** RelativeCMSpaceLSJT: subspaces L S J T g with states Nr lr Nc lc *)
Record clab := CLab { c_L : Z; c_S : Z; c_J : Z; c_T : Z; c_g : Z }.
Definition csub : Type := clab * list four.
Definition cspace : Type := list csub.
Definition cm_sectors (sp : cspace) : Z -> Z -> Z -> lsectors := jt_sectors (fun x => c_J (fst x)) (fun x => c_T (fst x)) (fun x => c_g (fst x)) sp.
Definition cm_zero_block (x y : csub) : mat num := mzero (Num 0) (List.length (snd x)) (List.length (snd y)).
(** basis::ConstructZeroOperatorRelativeCMLSJT *)
Definition cm_zero_component (o : oplab) (sp : cspace) (T0 : Z) : outcome (lsectors * blocks num) :=
  if ((o_T0_min o <=? T0) && (T0 <=? o_T0_max o))%Z then
    let s := cm_sectors sp (o_J0 o) T0 (o_g0 o) in
    ms <- map_blocks (fun x => b <- get (nth_error sp (fst x)) ;; k <- get (nth_error sp (snd x)) ;; Ok (cm_zero_block b k)) s ;;
    Ok (s, ms)
  else Ok ([], []).
Definition cm_zero_operator (o : oplab) (sp : cspace) : outcome ncomponents :=
  if (((o_T0_min o <? 0) || (2 <? o_T0_max o)) && (o_T0_min o <=? o_T0_max o))%Z then UB else map_blocks (cm_zero_component o sp) [0; 1; 2]%Z.
Definition cm_with_component (o : oplab) (sp : cspace) (T0 : Z) (f : csub -> csub -> outcome (mat num)) : outcome ncomponents :=
  z <- cm_zero_operator o sp ;;
  ' (s, _) <- at_z z T0 ;;
  ms <- map_blocks (fun x => b <- get (nth_error sp (fst x)) ;; k <- get (nth_error sp (snd x)) ;; f b k) s ;;
  store z (Z.to_nat T0) (s, ms).

(** lenpic_relcm_me.cpp:202-227 spherical_harmonic_rmes *)
Definition harmonic (lb lk k : Z) : R :=
  if (k =? 0)%Z then (if (lb =? lk)%Z then 1 else 0) else if allowed_triangle lb lk k then crme lb lk k else 0.
(** the coefficients of both couplings; of twice the arguments *)
Definition r12 (a b c d e f k1 k2 k : Z) : R := racah12 (2 * a) (2 * b) (2 * c) (2 * d) (2 * e) (2 * f) (2 * k1) (2 * k2) (2 * k).
(** lenpic_relcm_me.cpp:252-336 "A_1" to "A_5" *)
Definition a_term (coeff : R) (lk_rel Lk Sk : Z) (bl : clab) (lrb lcb : Z) (kl : clab) (lrk lck : Z) : R :=
  if allowed_triangle (c_S bl) (c_S kl) Sk && allowed_triangle lrb lrk lk_rel && allowed_triangle lcb lck 1 && allowed_triangle (c_L bl) (c_L kl) Lk then
    coeff * r12 lrb lcb (c_L bl) lrk lck (c_L kl) lk_rel 1 Lk * harmonic lrb lrk lk_rel * harmonic lcb lck 1
    * r12 (c_L bl) (c_S bl) (c_J bl) (c_L kl) (c_S kl) (c_J kl) Lk Sk 1 * spin_factors (c_S bl) (c_S kl) Sk
  else 0.
(** lenpic_relcm_me.cpp:242-250, tensor_product_rmes[0] *)
Definition a0_term (bl : clab) (lrb : Z) (kl : clab) (lrk : Z) : R :=
  if allowed_triangle (c_S bl) (c_S kl) 1 && (lrb =? lrk)%Z && (c_L bl =? c_L kl)%Z then
    racah2 (2 * c_L bl) (2 * c_S bl) (2 * c_J bl) (2 * c_L kl) (2 * c_S kl) (2 * c_J kl) 2 * spin_factors (c_S bl) (c_S kl) 1
  else 0.
(** lenpic_relcm_me.cpp:337-356, tensor_product_rmes[6] *)
Definition a6_term (bl : clab) (lrb lcb : Z) (kl : clab) (lrk lck : Z) : R :=
  if allowed_triangle (c_S bl) (c_S kl) 1 && (lcb =? lck)%Z && allowed_triangle lrb lrk 2 && allowed_triangle (c_L bl) (c_L kl) 2 then
    sqrt 10 * racah1 (2 * lrb) (2 * lcb) (2 * c_L bl) (2 * lrk) (2 * lck) (2 * c_L kl) 4 * harmonic lrb lrk 2 * harmonic lcb lck 0
    * r12 (c_L bl) (c_S bl) (c_J bl) (c_L kl) (c_S kl) (c_J kl) 2 1 1 * spin_factors (c_S bl) (c_S kl) 1
  else 0.
(** lenpic_relcm_me.cpp:358-425: integrals and sum *)
Definition radial_f (Nmax : Z) (npts : nat) (b reg shift : R) (lrb lrk : Z) (nb nk : nat) : outcome R :=
  wb <- osc_grid Nmax npts b shift lrb nb ;; wk <- osc_grid Nmax npts b shift lrk nk ;;
  integrate npts (times (times (times (times wb (exp_grid npts b)) wk) (local_grid npts b reg)) (jacobian_grid npts b)).
(** lenpic_relcm_me.cpp:171-426, one element before the common factor *)
Definition m1_element (Nmax : Z) (npts : nat) (b reg : R) (bl : clab) (bs : four) (kl : clab) (ks : four) : outcome num :=
  let '(Nrb, lrb, Ncb, lcb) := bs in let '(Nrk, lrk, Nck, lck) := ks in
  let nb := Z.to_nat (Z.quot (Nrb - lrb) 2) in
  let nk := Z.to_nat (Z.quot (Nrk - lrk) 2) in
  let cm_changing := ((Z.abs (Ncb - Nck) =? 1) && (Z.abs (lcb - lck) =? 1))%Z in
  let cm_preserving := ((Ncb =? Nck) && (lcb =? lck))%Z in
  if negb cm_changing && negb cm_preserving then Ok (Num 0)
  else if negb ((lcb =? lck)%Z || allowed_triangle lcb lck 1) then Ok (Num 0)
  else if negb ((lrb =? lrk)%Z || allowed_triangle lrb lrk 1 || allowed_triangle lrb lrk 2 || allowed_triangle lrb lrk 3) then Ok (Num 0)
  else
    let a0 := if cm_preserving then a0_term bl lrb kl lrk else 0 in
    let a1 := if cm_changing then a_term (- sqrt 3) 1 1 0 bl lrb lcb kl lrk lck else 0 in
    let a2 := if cm_changing then a_term (sqrt (3 / 5)) 1 1 2 bl lrb lcb kl lrk lck else 0 in
    let a3 := if cm_changing then a_term (sqrt (9 / 5)) 1 2 2 bl lrb lcb kl lrk lck else 0 in
    let a4 := if cm_changing then a_term (sqrt (14 / 5)) 3 2 2 bl lrb lcb kl lrk lck else 0 in
    let a5 := if cm_changing then a_term (sqrt (28 / 5)) 3 3 2 bl lrb lcb kl lrk lck else 0 in
    let a6 := if cm_preserving then a6_term bl lrb lcb kl lrk lck else 0 in
    f0 <- radial_f Nmax npts b reg 0 lrb lrk nb nk ;;
    f1 <- radial_f Nmax npts b reg (- (1 / 2)) lrb lrk nb nk ;;
    f2 <- (if cm_changing then radial_f Nmax npts b reg (-1) lrb lrk nb nk else Ok 0) ;;
    let rel := if cm_preserving then f0 * (a6 + 2 * a0) + f1 / pion_mass_fm * (a6 - a0) else 0 in
    if cm_changing then
      c <- coordinate Ncb lcb Nck lck 1 ;;
      let cm := nscale (b / sqrt 2 * pion_mass_fm) c in
      Ok (nadd (Num rel) (nadd (nadd (nscale (f0 * (a1 + a2 + a3 + a4 + a5)) cm)
                                     (nscale (3 * (f1 / pion_mass_fm) * (a2 + a3 + a4 + a5)) cm))
                               (nscale (3 * (f2 / (pion_mass_fm * pion_mass_fm)) * (a2 + a3 + a4 + a5)) cm)))
    else Ok (Num rel).
(** lenpic_relcm_me.cpp:427-432 *)
Definition m1_factor : R := - sqrt (3 / (4 * PI)) * gA ^ 2 * nucleon_mass_fm * pion_mass_fm / (24 * PI * pion_decay_constant_fm ^ 2).
(** lenpic_relcm_me.cpp:146-433, one sector *)
Definition m1_block (Nmax : Z) (npts : nat) (b reg : R) (x y : csub) : outcome (mat num) :=
  if (c_T (fst x) =? c_T (fst y))%Z then Ok (cm_zero_block x y)
  else
    index01 (c_S (fst x)) ;;; index01 (c_S (fst y)) ;;; index01 (c_T (fst x)) ;;; index01 (c_T (fst y)) ;;;
    m <- fill (Num 0) (List.length (snd x)) (List.length (snd y)) (fun i j =>
      bs <- get (nth_error (snd x) i) ;; ks <- get (nth_error (snd y) j) ;;
      m1_element Nmax npts b reg (fst x) bs (fst y) ks) ;;
    Ok (mat_scale (m1_factor * spin_factors (c_T (fst x)) (c_T (fst y)) 1) m).
(** lenpic_relcm_me.cpp:34-437 ConstructNLOM1Operator *)
Definition nlo_m1 (o : oplab) (Nmax : Z) (sp : cspace) (reg b : R) (npts : nat) : outcome ncomponents :=
  check (((o_J0 o =? 1) && (o_g0 o =? 0) && (o_T0_min o <=? 1) && (1 <=? o_T0_max o))%Z) ;;;
  cm_with_component o sp 1 (m1_block Nmax npts b reg).

(** relcm-gen.cpp:99-117 and 143-192: the line of the operator is a name and, for the only known name, regulator, length and number of steps
    (None: not readable).  The number of steps is not passed on, so that the default of lenpic_relcm_me.h:36, 3000 points, is used *)
Definition relcm_gen (o : oplab) (Nmax : Z) (sp : cspace) (name : string) (args : option (R * R * Z)) : outcome ncomponents :=
  if String.eqb name "LENPIC-NLOM1" then
    match args with
    | None => Exit
    | Some (reg, b, num_steps) => nlo_m1 o Nmax sp reg b (Z.to_nat 3000)
    end
  else Exit.
End Lenpic.
