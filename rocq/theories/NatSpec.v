(** Vocabulary for C100-C105: natural orbitals, composition and change of basis of files of one-body operators. *)
From Coq Require Import List ZArith Reals Bool Sorted Permutation.
From Verif Require Import Base RMat H2Model MapModel OscModel BlockModel BlockSpec ObioModel ObmModel ObmSpec NatModel.
Import ListNotations.
Open Scope R_scope.

(** orbitals with the labels of a spin-1/2 particle *)
Definition spin_orbitals (os : list (oinfo R)) : Prop := Forall (fun o => spin_half (oi_lab o)) os.
(** a space made of such orbitals *)
Definition orbitals_ok (s : wspace R) : Prop := exists os, spin_orbitals os /\ s = mk_wspace os.
(** what reading a file yields: spaces made of orbital lists, the sectors allowed by J0, g0, Tz0, one block for each *)
Definition rfile_ok (f : rfile) : Prop :=
  orbitals_ok (rf_bra f) /\ orbitals_ok (rf_ket f)
  /\ rf_sectors f = sectors_of (forget (rf_bra f)) (forget (rf_ket f)) (rf_q f)
  /\ op_ok (forget (rf_bra f)) (forget (rf_ket f)) (rf_sectors f) (rf_blocks f).
(** the full matrix of a file *)
Definition value (f : rfile) : nat -> nat -> nat -> nat -> R := entry (rf_sectors f) (rf_blocks f).
(** states of the bra space, of the ket space; sums over them *)
Definition bra_state (f : rfile) : nat -> nat -> Prop := state (forget (rf_bra f)).
Definition ket_state (f : rfile) : nat -> nat -> Prop := state (forget (rf_ket f)).
Definition sum_over (s : wspace R) (f : nat -> nat -> R) : R := ssum (forget s) f.
Definition delta (I i K k : nat) : R := if Nat.eqb I K && Nat.eqb i k then 1 else 0.
(** a file of overlaps *)
Definition scalar_file (f : rfile) : Prop := rfile_ok f /\ rf_radial f = true /\ rf_q f = (0, 0, 0)%Z.
(** the columns are orthonormal *)
Definition isometry (f : rfile) : Prop := forall I i K k, ket_state f I i -> ket_state f K k ->
  sum_over (rf_bra f) (fun A a => value f A a I i * value f A a K k) = delta I i K k.

(** * Natural orbitals *)
(** the symmetric matrix with the lower triangle of [m] *)
Definition mirrored (m : mat R) (i j : nat) : R := if Nat.leb j i then at_ m i j else at_ m j i.
(** what SelfAdjointEigenSolver promises for a square matrix: eigenvalues in ascending order, an orthogonal matrix of
    eigenvectors of the symmetric matrix given by the lower triangle *)
Definition solves (solve : mat R -> list R * mat R) (m : mat R) : Prop :=
  let n := rows m in let vals := fst (solve m) in let V := snd (solve m) in
  length vals = n /\ rows V = n /\ cols V = n /\ StronglySorted Rle vals
  /\ (forall i j, (i < n)%nat -> (j < n)%nat -> rsum n (fun k => at_ V k i * at_ V k j) = if Nat.eqb i j then 1 else 0)
  /\ (forall i j, (i < n)%nat -> (j < n)%nat -> rsum n (fun k => at_ V i k * at_ V j k) = if Nat.eqb i j then 1 else 0)
  /\ (forall i k, (i < n)%nat -> (k < n)%nat -> rsum n (fun j => mirrored m i j * at_ V j k) = at_ V i k * nth k vals 0).
(** what std::sort by weight promises *)
Definition lighter (a b : oinfo R) : Prop := oi_w a <= oi_w b.
Definition sorts (sort : list (oinfo R) -> list (oinfo R)) : Prop := forall l, Permutation l (sort l) /\ StronglySorted lighter (sort l).
(** a density read for the space [sp], with the blocks [ms] of its scalar part *)
Definition density_ok (sp : lspace) (d : density) (ms : blocks R) : Prop :=
  (de_min d <= 0 <= de_max d)%Z
  /\ nth_error (de_sectors d) (Z.to_nat (0 - de_min d)) = Some (sectors_of sp sp (0, 0, 0)%Z)
  /\ nth_error (de_blocks d) (Z.to_nat (0 - de_min d)) = Some ms
  /\ op_ok sp sp (sectors_of sp sp (0, 0, 0)%Z) ms.
(** the full matrix of the scalar density *)
Definition rho (sp : lspace) (ms : blocks R) : nat -> nat -> nat -> nat -> R := entry (sectors_of sp sp (0, 0, 0)%Z) ms.
(** its lower triangle, mirrored *)
Definition rho_lower (sp : lspace) (ms : blocks R) (A a B b : nat) : R :=
  if Nat.leb b a then rho sp ms A a B b else rho sp ms B b A a.
(** one line of the info file for each state: labels of the subspace, number of the natural orbital, occupation *)
Definition occupations (sp : lspace) (occ : nat -> nat -> R) : list (oinfo R) :=
  flat_map (fun Ix => map (fun i => OI (fst (snd Ix)) (Z.of_nat i) (occ (fst Ix) i)) (seq 0 (length (snd (snd Ix)))))
           (combine (seq 0 (length sp)) sp).
(** the radial quantum numbers of the orbitals with given labels are 0, 1, 2, ... and the weights grow with them *)
Definition weights_grow (os : list (oinfo R)) : Prop :=
  (forall a, Permutation (map fst (states_of a os)) (map Z.of_nat (seq 0 (length (states_of a os)))))
  /\ (forall o o', In o os -> In o' os -> oi_lab o = oi_lab o' -> (oi_n o < oi_n o')%Z -> oi_w o < oi_w o').
