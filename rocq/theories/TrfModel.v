(** libraries/moshinsky/moshinsky_xform.cpp:18-788: from a relative operator to the two-body jjJT scheme; and the order of the
    steps in programs/relutils/moshinsky.cpp.

    Simplifications: double is R, int has unlimited size, HalfInt j is 2j.  The basis library (not in the repository) is
    represented by subspaces with their labels and lists of states, and by the enumeration of sectors [jt_sectors].
    CanonicalizeIndicesJT exchanges bra and ket if the bra subspace comes after the ket subspace, with the factor [flip], and
    the state indices within one subspace.  The coefficients of module am (not in the repository) and the Moshinsky bracket
    (MoshModel.v) are parameters.  A subspace index or sector index kNone used as an index is undefined; a state index kNone
    fails Eigen's range assertion. *)
From Coq Require Import List ZArith Reals Bool.
From Verif Require Import Base RMat OscModel BlockModel ObioModel MoshModel JpvModel IsoModel.
Import ListNotations.
Open Scope Z_scope.
Open Scope outcome_scope.

(** labels of a subspace of RelativeCMSpaceLSJTN or TwoBodySpaceLSJTN *)
Record lab := Lab { b_L : Z; b_S : Z; b_J : Z; b_T : Z; b_g : Z; b_N : Z }.
(** state labels (Nr,lr,Nc,lc) or (N1,l1,N2,l2) *)
Definition four : Type := Z * Z * Z * Z.
Definition lssub : Type := lab * list four.
(** subspace of TwoBodySpaceJJJTN; an orbital is N, l, 2j *)
Definition orb3 : Type := Z * Z * Z.
Record jlab := JLab { a_J : Z; a_T : Z; a_g : Z; a_N : Z }.
Definition jjsub : Type := jlab * list (orb3 * orb3).
(** RelativeSpaceLSJT *)
Record relspace := Rel { rel_subs : rspace; rel_Nmax : Z; rel_Jmax : Z }.

Definition lab_eqb (x y : lab) : bool :=
  (b_L x =? b_L y) && (b_S x =? b_S y) && (b_J x =? b_J y) && (b_T x =? b_T y) && (b_g x =? b_g y) && (b_N x =? b_N y).
Definition four_eqb (x y : four) : bool :=
  let '(a, b, c, d) := x in let '(a', b', c', d') := y in (a =? a') && (b =? b') && (c =? c') && (d =? d').
(** sectors of an operator in a JT scheme (module basis): upper triangle, selection rules of J, T and parity *)
Definition jt_allowed {A} (J T g : A -> Z) (J0 T0 g0 : Z) (b k : A) : bool :=
  allowed_triangle (J b) J0 (J k) && allowed_triangle (T b) T0 (T k) && Z.even (g b + g0 + g k).
Definition jt_sectors {A} (J T g : A -> Z) (sp : list A) (J0 T0 g0 : Z) : lsectors :=
  filter (fun x => Nat.leb (fst x) (snd x) &&
    match nth_error sp (fst x), nth_error sp (snd x) with Some b, Some k => jt_allowed J T g J0 T0 g0 b k | _, _ => false end)
    (list_prod (seq 0 (length sp)) (seq 0 (length sp))).
Definition ls_sectors (sp : list lssub) : Z -> Z -> Z -> lsectors :=
  jt_sectors (fun x => b_J (fst x)) (fun x => b_T (fst x)) (fun x => b_g (fst x)) sp.
Definition jj_sectors (sp : list jjsub) : Z -> Z -> Z -> lsectors :=
  jt_sectors (fun x => a_J (fst x)) (fun x => a_T (fst x)) (fun x => a_g (fst x)) sp.
(** RelativeSubspaceLSJT::LookUpStateIndex(N): N = L, L+2, ... *)
Definition rel_state (x : rsub) (N : Z) : option nat :=
  if (r_L x <=? N) && Z.even (N - r_L x) && ((N - r_L x) / 2 <? Z.of_nat (r_dim x)) then Some (Z.to_nat ((N - r_L x) / 2)) else None.
(** intersection of the ranges of two couplings *)
Definition jr_range (lc J lr S : Z) : list Z := zrange (Z.max (Z.abs (lc - J)) (Z.abs (lr - S))) (Z.min (lc + J) (lr + S)).

(** labels of the operator *)
Record oplab := OpLab { o_J0 : Z; o_g0 : Z; o_T0_min : Z; o_T0_max : Z }.
(** for (T0 = T0_min; ...; T0_max): the component of an std::array<...,3>; other components stay as they are *)
Definition for_components (o : oplab) (f : Z -> outcome (lsectors * blocks R)) (c : components) : outcome components :=
  for_each (zrange (o_T0_min o) (o_T0_max o)) (fun T0 c =>
    p <- f T0 ;; if T0 <? 0 then UB else store c (Z.to_nat T0) p) c.
Definition no_components : components := [([], []); ([], []); ([], [])].

Section Transform.
(** am::Unitary6JZ(a,b,c,d,e,f), am::RacahReductionFactor1Rose(J1',J2',J',J1,J2,J,J0), am::Unitary9J, the latter of l1 2j1 l2 2j2 L S J *)
Variable u6jz : Z -> Z -> Z -> Z -> Z -> Z -> R.
Variable racah1 : Z -> Z -> Z -> Z -> Z -> Z -> Z -> R.
Variable u9j : Z -> Z -> Z -> Z -> Z -> Z -> Z -> R.
(** MoshinskyBracket(nr,lr,nc,lc,n1,l1,n2,l2,L) *)
Variable mosh : Z -> Z -> Z -> Z -> Z -> Z -> Z -> Z -> Z -> R.
(** factor for the exchange of bra and ket: T0, J and T of the bra, J and T of the ket *)
Variable flip : Z -> Z -> Z -> Z -> Z -> R.

(** moshinsky_xform.cpp:122-202, the term of Jr', Jr *)
Definition relcm_term (rs : relspace) (sectors : lsectors) (ms : blocks R) (J0 T0 : Z) (bl : lab) (b : four) (kl : lab) (k : four)
  (Jb Jk : Z) (acc : R) : outcome R :=
  let '(Nrb, lrb, _, lcb) := b in let '(Nrk, lrk, _, lck) := k in
  if negb (Z.max Jb Jk <=? rel_Jmax rs) then Ok acc
  else if negb (allowed_triangle Jb J0 Jk) then Ok acc
  else
    ib <- get (find_sub (rel_subs rs) lrb (b_S bl) Jb (b_T bl) (Z.rem lrb 2)) ;;
    ik <- get (find_sub (rel_subs rs) lrk (b_S kl) Jk (b_T kl) (Z.rem lrk 2)) ;;
    xb <- get (nth_error (rel_subs rs) ib) ;; xk <- get (nth_error (rel_subs rs) ik) ;;
    q <- get (look_up_sector sectors (Nat.min ib ik) (Nat.max ib ik)) ;;
    m <- get (nth_error ms q) ;;
    match rel_state xb Nrb, rel_state xk Nrk with
    | Some nb, Some nk =>
        let '(nb', nk', c) := canonicalize (flip T0 Jb (b_T bl) Jk (b_T kl)) ib ik nb nk in
        x <- mat_at m nb' nk' ;;
        Ok (acc + u6jz lrb lcb (b_L bl) (b_J bl) (b_S bl) Jb * u6jz lrk lck (b_L kl) (b_J kl) (b_S kl) Jk
                  * racah1 Jb lcb (b_J bl) Jk lck (b_J kl) J0 * (c * x))%R
    | _, _ => AssertFail
    end.
(** moshinsky_xform.cpp:71-206, one element; the matrix was set to zero *)
Definition relcm_element (rs : relspace) (sectors : lsectors) (ms : blocks R) (J0 T0 : Z) (bl : lab) (b : four) (kl : lab) (k : four) : outcome R :=
  let '(Nrb, lrb, Ncb, lcb) := b in let '(Nrk, lrk, Nck, lck) := k in
  if negb ((Ncb =? Nck) && (lcb =? lck)) then Ok 0%R
  else
    cassert (Z.max Nrb Nrk <=? rel_Nmax rs) ;;;
    for_each (jr_range lcb (b_J bl) lrb (b_S bl)) (fun Jb acc =>
      for_each (jr_range lck (b_J kl) lrk (b_S kl)) (fun Jk acc => relcm_term rs sectors ms J0 T0 bl b kl k Jb Jk acc) acc) 0%R.
(** RelativeCMMatrixLSJTN, moshinsky_xform.cpp:24-213 *)
Definition relcm_matrix (rs : relspace) (sectors : lsectors) (ms : blocks R) (J0 T0 : Z) (bra ket : lssub) : outcome (mat R) :=
  fill 0%R (length (snd bra)) (length (snd ket)) (fun i j =>
    b <- get (nth_error (snd bra) i) ;; k <- get (nth_error (snd ket) j) ;;
    relcm_element rs sectors ms J0 T0 (fst bra) b (fst ket) k).
(** TransformOperatorRelativeLSJTToRelativeCMLSJTN, :215-287 *)
Definition to_relcm (o : oplab) (rs : relspace) (c : components) (sp : list lssub) : outcome components :=
  for_components o (fun T0 =>
    let s := ls_sectors sp (o_J0 o) T0 (o_g0 o) in
    ' (sectors, ms) <- at_z c T0 ;;
    r <- map_blocks (fun x => b <- get (nth_error sp (fst x)) ;; k <- get (nth_error sp (snd x)) ;;
                              relcm_matrix rs sectors ms (o_J0 o) T0 b k) s ;;
    Ok (s, r)) no_components.

(** TransformationMatrixRelativeCMTwoBodyLSJTN, :293-347; int division of Nr - lr *)
Definition mosh_matrix (cm tb : lssub) : outcome (mat R) :=
  cassert (lab_eqb (fst cm) (fst tb)) ;;;
  fill 0%R (length (snd cm)) (length (snd tb)) (fun i j =>
    a <- get (nth_error (snd cm) i) ;; b <- get (nth_error (snd tb) j) ;;
    let '(Nr, lr, Nc, lc) := a in let '(N1, l1, N2, l2) := b in
    Ok (sqrt 2 * mosh (Z.quot (Nr - lr) 2) lr (Z.quot (Nc - lc) 2) lc (Z.quot (N1 - l1) 2) l1 (Z.quot (N2 - l2) 2) l2 (b_L (fst cm)))%R).
(** TwoBodyMatrixLSJTN, :349-375 *)
Definition tb_matrix (cmb cmk tbb tbk : lssub) (m : mat R) : outcome (mat R) :=
  u <- mosh_matrix cmb tbb ;; v <- mosh_matrix cmk tbk ;;
  p <- mmul (transpose u) m ;; mmul p v.
Definition find_ls (sp : list lssub) (l : lab) : option nat := find_ix (fun x => lab_eqb (fst x) l) sp.
(** TransformOperatorRelativeCMLSJTNToTwoBodyLSJTN, :377-440 *)
Definition to_two_body (o : oplab) (cm : list lssub) (c : components) (tb : list lssub) : outcome components :=
  for_components o (fun T0 =>
    let s := ls_sectors tb (o_J0 o) T0 (o_g0 o) in
    ' (sectors, ms) <- at_z c T0 ;;
    r <- map_blocks (fun x =>
      b <- get (nth_error tb (fst x)) ;; k <- get (nth_error tb (snd x)) ;;
      ib <- get (find_ls cm (fst b)) ;; ik <- get (find_ls cm (fst k)) ;;
      q <- get (look_up_sector sectors ib ik) ;;
      cb <- get (nth_error cm ib) ;; ck <- get (nth_error cm ik) ;;
      m <- get (nth_error ms q) ;;
      tb_matrix cb ck b k m) s ;;
    Ok (s, r)) no_components.

(** TransformationMatrixTwoBodyLSJTNToTwoBodyJJJTN, :447-543; the sparse matrix as a dense one *)
Definition jj_matrix (ls : lssub) (jj : jjsub) : outcome (mat R) :=
  cassert (b_N (fst ls) =? a_N (fst jj)) ;;; cassert (b_J (fst ls) =? a_J (fst jj)) ;;;
  cassert (b_T (fst ls) =? a_T (fst jj)) ;;; cassert (b_g (fst ls) =? a_g (fst jj)) ;;;
  fill 0%R (length (snd ls)) (length (snd jj)) (fun i j =>
    s <- get (nth_error (snd jj) j) ;;
    let '((N1, l1, j1), (N2, l2, j2)) := s in
    match find_ix (four_eqb (N1, l1, N2, l2)) (snd ls) with
    | None => Ok 0%R
    | Some p => Ok (if Nat.eqb p i then u9j l1 j1 l2 j2 (b_L (fst ls)) (b_S (fst ls)) (b_J (fst ls)) else 0%R)
    end).
(** SubspacesConnectedLSJTNToJJJTN, :545-570 *)
Definition connected (ls : lssub) (jj : jjsub) : bool :=
  (b_N (fst ls) =? a_N (fst jj)) && (b_J (fst ls) =? a_J (fst jj)) && (b_T (fst ls) =? a_T (fst jj)) && (b_g (fst ls) =? a_g (fst jj)).
(** the subspaces which contribute, with their transformation matrices, :622-666 *)
Definition contributing (sp : list lssub) (jj : jjsub) : outcome (list (nat * mat R)) :=
  map_blocks (fun i => x <- get (nth_error sp i) ;; u <- jj_matrix x jj ;; Ok (i, u))
    (filter (fun i => match nth_error sp i with Some x => connected x jj | None => false end) (seq 0 (length sp))).
(** TwoBodyMatrixJJJTN, :572-728; J0 and g0 enter only through [flip] *)
Definition jjjt_matrix (sp : list lssub) (sectors : lsectors) (ms : blocks R) (T0 : Z) (bra ket : jjsub) : outcome (mat R) :=
  bs <- contributing sp bra ;; ks <- contributing sp ket ;;
  for_each (list_prod bs ks) (fun x m =>
    let '((ib, u), (ik, v)) := x in
    b <- get (nth_error sp ib) ;; k <- get (nth_error sp ik) ;;
    q <- get (look_up_sector sectors (Nat.min ib ik) (Nat.max ib ik)) ;;
    a <- get (nth_error ms q) ;;
    let a' := if Nat.ltb ik ib then
                let c := flip T0 (b_J (fst b)) (b_T (fst b)) (b_J (fst k)) (b_T (fst k)) in
                Mat (cols a) (rows a) (fun i j => c * at_ a j i)%R
              else a in
    p <- mmul (transpose u) a' ;; w <- mmul p v ;; madd_to m w)
    (mzero 0%R (length (snd bra)) (length (snd ket))).
(** TransformOperatorTwoBodyLSJTNToTwoBodyJJJTN, :730-773 *)
Definition to_jjjt (o : oplab) (sp : list lssub) (c : components) (jj : list jjsub) : outcome components :=
  for_components o (fun T0 =>
    let s := jj_sectors jj (o_J0 o) T0 (o_g0 o) in
    ' (sectors, ms) <- at_z c T0 ;;
    r <- map_blocks (fun x => b <- get (nth_error jj (fst x)) ;; k <- get (nth_error jj (snd x)) ;;
                              jjjt_matrix sp sectors ms T0 b k) s ;;
    Ok (s, r)) no_components.

(** moshinsky.cpp:441-597, source "rel": relative to relative-cm, two-body LSJTN and jjJTN operators *)
Definition moshinsky_rel (o : oplab) (rs : relspace) (c : components) (cm tb : list lssub) (jj : list jjsub) : outcome components :=
  c1 <- to_relcm o rs c cm ;; c2 <- to_two_body o cm c1 tb ;; to_jjjt o tb c2 jj.
End Transform.
