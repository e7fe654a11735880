(** Lemmas for C87, C88: ew-gen, counterexamples; concrete cases for C82-C88. *)
From Coq Require Import String List ZArith Reals Bool Lra Lia.
From Verif Require Import Base BaseLemmas RMat H2Model MapModel OscModel OscSpec BlockModel BlockSpec BlockProof BlockFinal ObioModel ObioProof ObioFinal
  MixModel MixSpec MixProof MixFinal ObmModel ObmSpec ObmProof ObmFinal ObmFin2 ObmFin3 ObmFin4.
Import ListNotations.
Open Scope R_scope.
Open Scope outcome_scope.

(** operators with constant blocks *)
Definition const_blocks (sp : lspace) (s : lsectors) (x : R) : blocks R := map (fun p => Mat (sub_dim sp (fst p)) (sub_dim sp (snd p)) (fun _ _ => x)) s.
Lemma const_op : forall sp q x, tensor_op sp q (sectors_of sp sp q) (const_blocks sp (sectors_of sp sp q) x).
Proof.
  intros sp q x. split; [|reflexivity]. split; [apply sectors_nodup|]. unfold const_blocks.
  assert (H := sectors_range sp sp q). revert H. generalize (sectors_of sp sp q) as s. induction s as [|[I K] s IH]; intros H; cbn [map]; constructor.
  - destruct (H (I, K) (or_introl eq_refl)). auto.
  - apply IH. intros y Hy. apply H. right. exact Hy.
Qed.
Lemma const_entry : forall sp q x I i K k, In (I, K) (sectors_of sp sp q) -> entry (sectors_of sp sp q) (const_blocks sp (sectors_of sp sp q) x) I i K k = x.
Proof.
  intros sp q x I i K k Hin. destruct (In_nth_error _ _ Hin) as [n Hn].
  rewrite (entry_found _ _ I i K k n (Mat (sub_dim sp I) (sub_dim sp K) (fun _ _ => x)) (sectors_nodup _ _ _) Hn); [reflexivity|]. unfold const_blocks. rewrite nth_error_map. unfold lsectors in *. rewrite Hn. reflexivity.
Qed.
Definition const_file (sp : lspace) (q : qn) (x : R) : obfile := ObFile sp sp q (sectors_of sp sp q) (const_blocks sp (sectors_of sp sp q) x).
Lemma const_file_ok : forall sp q x, file_ok (const_file sp q x) sp q.
Proof. intros sp q x. split; [reflexivity|]. split; [reflexivity|]. split; [reflexivity|]. apply const_op. Qed.

(** the input of another rank *)
Definition p32 : lspace := [(LL SP 1 3, [0%Z])].
Theorem ew_rank_refuted : exists sp b0 radial lambda f g, file_ok f sp (0, 0, 0)%Z /\ find_op Z.eqb radial lambda = Some f
  /\ target_E sp (Some b0) radial lambda None = Ok g /\ of_q g = (2, 0, 0)%Z /\ file_entry g 0 0 0 0 = 1 /\ state sp 0 0.
Proof.
  exists p32, 1, [(2%Z, const_file p32 (0, 0, 0)%Z 1)], 2%Z, (const_file p32 (0, 0, 0)%Z 1).
  eexists. split; [apply const_file_ok|]. split; [reflexivity|]. split; [vm_compute; reflexivity|]. split; [reflexivity|]. split; [|split; cbn; lia]. cbn. lra.
Qed.
Definition sd : lspace := [(LL SP 0 1, [0%Z]); (LL SP 2 5, [0%Z])].
Theorem ew_rank_blocks_refuted : exists sp b0 radial lambda f, file_ok f sp (0, 0, 0)%Z /\ find_op Z.eqb radial lambda = Some f
  /\ orbital_space sp /\ target_E sp (Some b0) radial lambda None = UB.
Proof.
  exists sd, 1, [(2%Z, const_file sd (0, 0, 0)%Z 1)], 2%Z, (const_file sd (0, 0, 0)%Z 1).
  split; [apply const_file_ok|]. split; [reflexivity|]. split; [repeat (constructor; [split; [unfold spin_half; cbn; lia|repeat constructor; lia]|]); constructor|]. vm_compute. reflexivity.
Qed.

(** Dl *)
Definition sp_space : lspace := [(LL SP 0 1, [0%Z]); (LL SP 1 3, [0%Z])].
Lemma sp_l : forall I K, In (I, K) (sectors_of sp_space sp_space (1, 0, 0)%Z) <-> (I, K) = (0, 0)%nat \/ (I, K) = (1, 1)%nat.
Proof. intros I K. replace (sectors_of sp_space sp_space (1, 0, 0)%Z) with [(0, 0)%nat; (1, 1)%nat] by reflexivity. cbn. intuition congruence. Qed.
Lemma sp_r : forall I K, In (I, K) (sectors_of sp_space sp_space (1, 1, 0)%Z) <-> (I, K) = (0, 1)%nat \/ (I, K) = (1, 0)%nat.
Proof. intros I K. replace (sectors_of sp_space sp_space (1, 1, 0)%Z) with [(0, 1)%nat; (1, 0)%nat] by reflexivity. cbn. intuition congruence. Qed.
Lemma sp_product : forall racah x y, product_entry racah sp_space (1, 0, 0)%Z (1, 1, 0)%Z (2, 1, 0)%Z (const_file sp_space (1, 0, 0)%Z x) (const_file sp_space (1, 1, 0)%Z y) 1 0 0 0
  = racah 3%Z 1%Z 3%Z 1%Z 1%Z 2%Z * x * y.
Proof.
  intros racah x y. unfold product_entry. rewrite (ssum_one sp_space 1 0).
  - unfold file_entry, const_file. cbn [of_sectors of_blocks]. rewrite !const_entry; [reflexivity|apply sp_r; auto|apply sp_l; auto].
  - split; cbn; lia.
  - intros [|[|J]] j [HJ Hj] Hne; cbn in HJ, Hj; [|destruct j; [congruence|lia]|lia].
    unfold file_entry, const_file. cbn [of_sectors of_blocks]. rewrite (entry_absent (sectors_of sp_space sp_space (1, 0, 0)%Z)); [ring|]. rewrite sp_l. intros [E|E]; discriminate.
Qed.
Theorem Dl_refuted : forall racah inv_sqrt_4pi, (forall j' j j'' Ja Jb J, ~ coupled j (2 * J) j' -> racah j' j j'' Ja Jb J = 0) -> racah 3%Z 1%Z 3%Z 1%Z 1%Z 2%Z <> 0 ->
  exists sp b0 radial am lambda f r g I i K k,
    find_op am_eqb am AOrbital = Some f /\ file_ok f sp (1, 0, 0)%Z /\ find_op Z.eqb radial (lambda - 1)%Z = Some r /\ file_ok r sp (lambda - 1, Z.rem (lambda - 1) 2, 0)%Z
    /\ target_M racah inv_sqrt_4pi sp (Some b0) radial am true lambda None = Ok g /\ state sp I i /\ state sp K k
    /\ file_entry g I i K k = 0
    /\ gradient_factor b0 lambda * orbital_factor lambda * product_entry racah sp (1, 0, 0)%Z (lambda - 1, Z.rem (lambda - 1) 2, 0)%Z (lambda, Z.rem (lambda - 1) 2, 0)%Z f r I i K k <> 0.
Proof.
  intros racah inv Hz Hr. set (f := const_file sp_space (1, 0, 0)%Z 1). set (r := const_file sp_space (1, 1, 0)%Z 1).
  exists sp_space, 1, [(1%Z, r)], [(AOrbital, f)], 2%Z, f, r.
  destruct (target_Dl_zero racah inv sp_space 1 [(1%Z, r)] [(AOrbital, f)] 2 None f r) as (g & E & _ & A); [lia|reflexivity|apply const_file_ok|reflexivity|apply const_file_ok|exact Hz|].
  exists g, 1%nat, 0%nat, 0%nat, 0%nat. split; [reflexivity|]. split; [apply const_file_ok|]. split; [reflexivity|]. split; [apply const_file_ok|]. split; [exact E|].
  assert (S1 : state sp_space 1 0) by (split; cbn; lia). assert (S0 : state sp_space 0 0) by (split; cbn; lia). split; [exact S1|]. split; [exact S0|]. split; [exact (A _ _ _ _ S1 S0)|].
  change (2 - 1)%Z with 1%Z. change (Z.rem 1 2) with 1%Z. unfold f, r. rewrite sp_product. unfold gradient_factor, orbital_factor. change (2 - 1)%Z with 1%Z. change (2 + 1)%Z with 3%Z. change (2 * 2 + 1)%Z with 5%Z.
  rewrite powerRZ_1. assert (0 < sqrt 5) by (apply sqrt_lt_R0; lra). assert (0 < sqrt 2) by (apply sqrt_lt_R0; lra).
  repeat apply Rmult_integral_contrapositive_currified; try lra; try exact Hr.
Qed.
(** a linear combination that names itself *)
Theorem linear_self_refuted : exists ops id co od, linear_channel id co ops = Ok ((id, od) :: ops) /\ assoc ops id = None
  /\ holds ops "a" [(LL SP 0 1, [0%Z])] (0, 0, 0)%Z (fun _ _ _ _ => 3)
  /\ co = [("a"%string, 1); (id, 1)] /\ entry (od_sectors od) (od_blocks od) 0 0 0 0 = 6.
Proof.
  exists [("a"%string, one_op (LL SP 0 1) 3)], "c"%string, [("a"%string, 1); ("c"%string, 1)]. eexists.
  split; [vm_compute; reflexivity|]. split; [reflexivity|]. split; [apply one_op_holds; [apply spin_half_0|reflexivity]|]. split; [reflexivity|]. cbn. lra.
Qed.

(** ** concrete cases *)
Theorem C82_case : forall racah : Z -> Z -> Z -> Z -> Z -> Z -> R, exists r,
  tensor_product racah sp_space (1, 0, 0)%Z (sectors_of sp_space sp_space (1, 0, 0)%Z) (const_blocks sp_space (sectors_of sp_space sp_space (1, 0, 0)%Z) 2)
    (1, 1, 0)%Z (sectors_of sp_space sp_space (1, 1, 0)%Z) (const_blocks sp_space (sectors_of sp_space sp_space (1, 1, 0)%Z) 5) (2, 1, 0)%Z (sectors_of sp_space sp_space (2, 1, 0)%Z) = Ok r
  /\ entry (sectors_of sp_space sp_space (2, 1, 0)%Z) r 1 0 0 0 = racah 3%Z 1%Z 3%Z 1%Z 1%Z 2%Z * 10.
Proof.
  intros racah.
  destruct (tensor_ok racah sp_space (1, 0, 0)%Z (sectors_of sp_space sp_space (1, 0, 0)%Z) (const_blocks sp_space (sectors_of sp_space sp_space (1, 0, 0)%Z) 2)
    (1, 1, 0)%Z (sectors_of sp_space sp_space (1, 1, 0)%Z) (const_blocks sp_space (sectors_of sp_space sp_space (1, 1, 0)%Z) 5) (2, 1, 0)%Z (sectors_of sp_space sp_space (2, 1, 0)%Z)
    (proj1 (const_op _ _ _)) (proj1 (const_op _ _ _)) (sectors_nodup _ _ _) (sectors_range _ _ _)) as (r & E & _ & A).
  { unfold product_qn, coupled. split; [lia|]. split; [exists 1%Z; reflexivity|reflexivity]. }
  exists r. split; [exact E|]. rewrite A; [|vm_compute; auto|cbn; lia|cbn; lia].
  pose proof (sp_product racah 2 5) as P. unfold product_entry, file_entry, const_file in P. cbn [of_sectors of_blocks] in P. rewrite P. ring.
Qed.
Definition pn_space : lspace := [(LL SP 1 3, [0; 1]%Z); (LL SN 1 3, [0; 1]%Z)].
Lemma pn_space_ok : orbital_space pn_space /\ distinct_labels pn_space /\ distinct_n pn_space /\ aligned pn_space /\ charge_symmetric pn_space.
Proof.
  split; [repeat (constructor; [split; [unfold spin_half; cbn; lia|repeat constructor; lia]|]); constructor|].
  split; [unfold distinct_labels; cbn; constructor; [intros [X|[]]; discriminate|constructor; [intros []|constructor]]|].
  split; [repeat (constructor; [cbn; small|]); constructor|]. split.
  - intros I K i n n' (x & H1 & H2) (y & H3 & H4). destruct I as [|[|I]]; [| |destruct I; discriminate]; (destruct K as [|[|K]]; [| |destruct K; discriminate]);
      cbn in H1, H3; injection H1 as <-; injection H3 as <-; cbn in H2, H4; congruence.
  - intros l ns [E|[E|[]]]; injection E as <- <-; cbn; auto.
Qed.
Theorem C83_case : exists p z j, isospin pn_space (0, 0, 1)%Z (sectors_of pn_space pn_space (0, 0, 1)%Z) = Ok p /\ isospin pn_space (0, 0, 0)%Z (sectors_of pn_space pn_space (0, 0, 0)%Z) = Ok z
  /\ angular_momentum_squared ATotal pn_space (0, 0, 0)%Z (sectors_of pn_space pn_space (0, 0, 0)%Z) = Ok j
  /\ entry (sectors_of pn_space pn_space (0, 0, 1)%Z) p 0 1 1 1 = 1 /\ entry (sectors_of pn_space pn_space (0, 0, 1)%Z) p 0 0 1 1 = 0 /\ entry (sectors_of pn_space pn_space (0, 0, 1)%Z) p 1 1 0 1 = 0
  /\ entry (sectors_of pn_space pn_space (0, 0, 0)%Z) z 1 1 1 1 = - (1 / 2) /\ entry (sectors_of pn_space pn_space (0, 0, 0)%Z) j 1 0 1 0 = 15 / 4.
Proof. eexists _, _, _. split; [vm_compute; reflexivity|]. split; [vm_compute; reflexivity|]. split; [vm_compute; reflexivity|]. cbn. repeat split; lra. Qed.
Theorem C84_case : forall spline crme am_rme inv_sqrt_4pi, exists s m,
  generated_channel spline crme am_rme inv_sqrt_4pi (Run BOscillator 2 [(LL SP 0 1, [0%Z])]) "r.r" (GRadial TR) 2 (0, 0, 0)%Z None [] = Ok [("r.r"%string, data_of [(LL SP 0 1, [0%Z])] (0, 0, 0)%Z s m)]
  /\ entry s m 0 0 0 0 = 4 * (3 / 2) * crme 0%Z 1%Z 0%Z 1%Z 0%Z.
Proof.
  intros spline crme am_rme inv. destruct sqr_00 as (x & Ex & Vx).
  assert (V0 : radial_value spline BOscillator TR 2 0 0 0 0 0 0 x) by (unfold radial_value; change (radial_element spline BOscillator (is_TK TR) 2 0 0 0 0 0 0) with (@Ok num (coordinate_sqr 0 0 0 0 1)); rewrite Ex; reflexivity).
  destruct (generated_solid spline crme am_rme inv (Run BOscillator 2 one) "r.r" TR 2 0 0 0 [] (fun _ _ _ _ => x)) as (s & m & E & _ & A); [discriminate|reflexivity| |].
  { intros I i K k a n b n' H1 H2 _. cbn [rn_space] in *. apply one_at in H1, H2. destruct H1 as (_ & _ & -> & ->), H2 as (_ & _ & -> & ->). exact V0. }
  exists s, m. split; [exact E|]. rewrite (proj1 (A 0%nat 0%nat 0%nat 0%nat p0 0%Z p0 0%Z one_00 one_00)); [|exact (scalar_self p0 (spin_half_0 SP))].
  change (assoc kinematic "r.r") with (Some (GRadial TR, 2, (0, 0, 0))%Z). cbn [rn_length p0 ll_l ll_2j length_power]. unfold powerRZ. change (Pos.to_nat 2) with 2%nat. subst x. ring.
Qed.
Theorem C85_case : forall spline, exists s m, let ops := [("a"%string, data_of [(LL SP 0 1, [0; 1]%Z)] (0, 0, 0)%Z [(0, 0)%nat] [Mat 2 2 (fun i j => INR (10 * i + j))])] in
  write_channel spline (Run BOscillator 1 [(LL SP 0 1, [1; 2]%Z)]) "a" ops = Ok (ObFile [(LL SP 0 1, [1; 2]%Z)] [(LL SP 0 1, [1; 2]%Z)] (0, 0, 0)%Z s m)
  /\ entry s m 0 0 0 0 = 11 /\ entry s m 0 1 0 1 = 0.
Proof.
  intros spline. set (sp := [(LL SP 0 1, [0; 1]%Z)]). set (rsp := [(LL SP 0 1, [1; 2]%Z)]). set (m0 := [Mat 2 2 (fun i j => INR (10 * i + j))]).
  assert (T : tensor_op sp (0, 0, 0)%Z [(0, 0)%nat] m0).
  { split; [|reflexivity]. split; [constructor; [intros []|constructor]|]. constructor; [cbn; auto|constructor]. }
  destruct (write_ok spline (Run BOscillator 1 rsp) "a" [("a"%string, data_of sp (0, 0, 0)%Z [(0, 0)%nat] m0)] sp (0, 0, 0)%Z [(0, 0)%nat] m0 eq_refl T) as (s & m & E & _ & A1 & A2).
  - constructor; [split; [apply spin_half_0|repeat constructor; lia]|constructor].
  - constructor; [intros []|constructor].
  - constructor; [cbn; small|constructor].
  - constructor; [split; [apply spin_half_0|repeat constructor; lia]|constructor].
  - cbn [rn_space] in *. exists s, m. split; [exact E|].
    assert (X : same_orbital rsp 0 0 sp 0 1) by (exists (LL SP 0 1, [1; 2]%Z), (LL SP 0 1, [0; 1]%Z), 1%Z; repeat split; reflexivity).
    split; [rewrite (A1 _ _ _ _ _ _ _ _ X X); cbn; lra|]. apply A2; [split; cbn; lia|split; cbn; lia|]. left. intros A a (x & y & n & H1 & H2 & H3 & H4 & H5).
    cbn in H1. injection H1 as <-. cbn in H4. injection H4 as <-. destruct A as [|A]; [|destruct A; discriminate]. cbn in H2. injection H2 as <-. cbn in H5. destruct a as [|[|[|a]]]; discriminate.
Qed.
Theorem C86_case : exists od, linear_channel "c" [("a"%string, 2); ("b"%string, 3)] [("a"%string, one_op (LL SP 0 1) 3); ("b"%string, one_op (LL SP 0 1) 4)]
    = Ok [("c"%string, od); ("a"%string, one_op (LL SP 0 1) 3); ("b"%string, one_op (LL SP 0 1) 4)] /\ entry (od_sectors od) (od_blocks od) 0 0 0 0 = 18.
Proof. eexists. split; [vm_compute; reflexivity|]. cbn. lra. Qed.
Theorem C87_case : exists g g', target_E p32 (Some 3) [(2%Z, const_file p32 (2, 0, 0)%Z 5)] 2 (Some SP) = Ok g /\ target_E p32 (Some 3) [(2%Z, const_file p32 (2, 0, 0)%Z 5)] 2 (Some SN) = Ok g'
  /\ file_entry g 0 0 0 0 = 45 /\ file_entry g' 0 0 0 0 = 0.
Proof.
  destruct (target_E_ok p32 3 [(2%Z, const_file p32 (2, 0, 0)%Z 5)] 2 (Some SP) (const_file p32 (2, 0, 0)%Z 5) eq_refl (const_file_ok _ _ _)) as (g & E & _ & A).
  destruct (target_E_ok p32 3 [(2%Z, const_file p32 (2, 0, 0)%Z 5)] 2 (Some SN) (const_file p32 (2, 0, 0)%Z 5) eq_refl (const_file_ok _ _ _)) as (g' & E' & _ & A').
  exists g, g'. split; [exact E|]. split; [exact E'|]. assert (P : orbital_at p32 0 0 (LL SP 1 3) 0) by (exists [0%Z]; split; reflexivity). assert (S : state p32 0 0) by (split; cbn; lia).
  rewrite (A _ _ _ _ _ _ P S), (A' _ _ _ _ _ _ P S). unfold powerRZ. change (Pos.to_nat 2) with 2%nat. unfold file_entry, const_file. cbn [of_sectors of_blocks].
  rewrite const_entry by (vm_compute; auto). cbn. split; lra.
Qed.
Theorem C88_case : forall racah inv_sqrt_4pi, exists g, target_M racah inv_sqrt_4pi p32 (Some 7) [] [(AOrbital, const_file p32 (1, 0, 0)%Z 5)] true 1 None = Ok g
  /\ file_entry g 0 0 0 0 = sqrt 3 * inv_sqrt_4pi * 5.
Proof.
  intros racah inv. destruct (target_M1_ok racah inv p32 7 [] [(AOrbital, const_file p32 (1, 0, 0)%Z 5)] true None (const_file p32 (1, 0, 0)%Z 5) eq_refl (const_file_ok _ _ _)) as (g & E & _ & A).
  exists g. split; [exact E|]. assert (P : orbital_at p32 0 0 (LL SP 1 3) 0) by (exists [0%Z]; split; reflexivity). assert (S : state p32 0 0) by (split; cbn; lia).
  rewrite (A _ _ _ _ _ _ P S). unfold file_entry, const_file. cbn [of_sectors of_blocks]. rewrite const_entry by (vm_compute; auto). cbn. ring.
Qed.
