(** Lemmas for C86-C88: linear combinations, ew-gen. *)
From Coq Require Import String List ZArith Reals Bool Lra Lia.
From Verif Require Import Base BaseLemmas RMat H2Model MapModel OscModel OscSpec BlockModel BlockSpec BlockProof BlockFinal ObioModel ObioProof ObioFinal
  MixModel MixSpec MixProof MixFinal ObmModel ObmSpec ObmProof ObmFinal ObmFin2.
Import ListNotations.
Open Scope R_scope.
Open Scope outcome_scope.

(** ** linear combinations *)
Definition on_space (sp : lspace) (q : Z * Z * Z) : lsectors := sectors_of sp sp q.
Lemma lc_agree : forall ops id ic st st', lc_term on_space ops id ic st = Ok st' -> ob_lc_term ops id ic st = Ok st'.
Proof.
  intros ops id ic [first od] st' H. unfold lc_term, ob_lc_term in *. destruct (if String.eqb (fst ic) id then Some od else assoc ops (fst ic)) as [src|]; [|discriminate].
  destruct (od_q src) as [q|]; [|discriminate]. cbn [get bind] in *. destruct first; [exact H|]. destruct (od_q od) as [q'|]; [|discriminate]. cbn [get bind] in *.
  destruct (lspace_eqb (od_space src) (od_space od)); [|discriminate]. exact H.
Qed.
Lemma lc_agree_all : forall ops id co st st', for_each co (lc_term on_space ops id) st = Ok st' -> for_each co (ob_lc_term ops id) st = Ok st'.
Proof.
  intros ops id co. induction co as [|ic co IH]; intros st st' H; [exact H|]. cbn [for_each] in *. apply bind_inv in H. destruct H as (s1 & H1 & H2).
  rewrite (lc_agree _ _ _ _ _ H1). cbn [bind]. exact (IH _ _ H2).
Qed.
Lemma linear_agree : forall ops id co r, linear_combination on_space ops id co = Ok r -> linear_channel id co ops = Ok r.
Proof.
  intros ops id co r H. unfold linear_combination, linear_channel in *. destruct (assoc ops id) eqn:E; [discriminate|]. apply bind_inv in H. destruct H as ([fl od] & H1 & H2).
  rewrite (lc_agree_all _ _ _ _ _ H1). cbn [bind]. unfold add_new. rewrite E. exact H2.
Qed.
Lemma op_sized : forall sp s m, op_ok sp sp s m -> sized sp s m.
Proof. intros sp s m [_ F]. unfold sized. induction F; constructor; [tauto|assumption]. Qed.
Theorem linear_ok : forall ops id sp q (co : list (string * R)) (f : string -> nat -> nat -> nat -> nat -> R), assoc ops id = None -> co <> [] ->
  (forall ic, In ic co -> holds ops (fst ic) sp q (f (fst ic))) ->
  exists s m, linear_channel id co ops = Ok ((id, data_of sp q s m) :: ops) /\ tensor_op sp q s m
  /\ forall I i K k, state sp I i -> state sp K k -> entry s m I i K k = lsum co (fun ic => snd ic * f (fst ic) I i K k).
Proof.
  intros ops id sp q co f Hid Hne H. set (s := sectors_of sp sp q).
  assert (F : Forall (term_ok on_space ops id sp q) co).
  { apply Forall_forall. intros ic Hic. destruct (H ic Hic) as (s0 & m0 & E0 & [O0 S0] & _). split; [intros E; rewrite E in E0; congruence|].
    exists (data_of sp q s0 m0). split; [exact E0|]. split; [reflexivity|]. split; [reflexivity|]. cbn. rewrite S0 in O0. exact (op_sized _ _ _ O0). }
  destruct (linear_combination_ok on_space ops id sp q co Hid Hne F) as ([osp oq os om] & E & A1 & A2 & A3 & A4 & A5). cbn in A1, A2, A3, A4, A5. subst osp oq os.
  fold (on_space sp q) in s. exists s, om. split; [exact (linear_agree _ _ _ _ E)|].
  assert (O : op_ok sp sp s om).
  { split; [apply sectors_nodup|]. apply Forall2_of_nth; [exact (Forall2_len' _ _ _ _ _ A4)|]. intros i [I K] m Hi Hm.
    destruct (Forall2_nth_l _ _ _ _ _ _ _ A4 Hi) as (m' & Hm' & R1 & C1). rewrite Hm in Hm'. injection Hm' as <-. destruct (sectors_range _ _ _ _ (nth_error_In _ _ Hi)). auto. }
  split; [split; [exact O|reflexivity]|]. intros I i K k HI HK.
  destruct (in_dec (fun x y : nat * nat => ltac:(decide equality; apply Nat.eq_dec)) (I, K) s) as [Hin|Hin].
  - destruct (In_nth_error _ _ Hin) as [x Hx]. destruct (op_nth _ _ _ _ _ _ _ O Hx) as (m & Hm & _). rewrite (entry_found s om I i K k x m (proj1 O) Hx Hm). rewrite (A5 x m Hm).
    unfold combination. apply lsum_ext. intros ic Hic. destruct (H ic Hic) as (s0 & m0 & E0 & [O0 S0] & V0). unfold ob_element. rewrite E0. cbn [data_of od_blocks].
    rewrite <- (V0 I i K k HI HK). subst s0. destruct (op_nth _ _ _ _ _ _ _ O0 Hx) as (b & Hb & _). rewrite Hb. rewrite (entry_found _ m0 I i K k x b (proj1 O0) Hx Hb). reflexivity.
  - rewrite entry_absent by exact Hin. symmetry. apply lsum_0. intros ic Hic. destruct (H ic Hic) as (s0 & m0 & E0 & [O0 S0] & V0). rewrite <- (V0 I i K k HI HK), entry_absent; [ring|].
    rewrite S0. exact Hin.
Qed.
Theorem linear_exists : forall ops id co o, assoc ops id = Some o -> linear_channel id co ops = Exit.
Proof. intros. unfold linear_channel. rewrite H. reflexivity. Qed.
Lemma ob_term_q : forall ops id ic od od' q o q', od_q od = Some q -> fst ic <> id -> assoc ops (fst ic) = Some o -> od_q o = Some q' -> q' <> q ->
  ob_lc_term ops id ic (false, od) = od' -> od' = AssertFail.
Proof.
  intros ops id ic od od' q o q' Hq Hn Ho Hq' Hne <-. unfold ob_lc_term. apply String.eqb_neq in Hn. rewrite Hn, Ho, Hq', Hq. cbn [get bind].
  rewrite q_eqb_ne by congruence. reflexivity.
Qed.
(** quantum numbers that differ from those of the first term *)
Theorem linear_q : forall ops id sp q ic ic' co f o q', assoc ops id = None -> holds ops (fst ic) sp q f ->
  fst ic' <> id -> assoc ops (fst ic') = Some o -> od_q o = Some q' -> q' <> q -> linear_channel id (ic :: ic' :: co) ops = AssertFail.
Proof.
  intros ops id sp q ic ic' co f o q' Hid H Hn Ho Hq Hne.
  assert (F : Forall (term_ok on_space ops id sp q) [ic]).
  { constructor; [|constructor]. destruct H as (s0 & m0 & E0 & [O0 S0] & _). split; [intros E; rewrite E in E0; congruence|].
    exists (data_of sp q s0 m0). split; [exact E0|]. split; [reflexivity|]. split; [reflexivity|]. cbn. rewrite S0 in O0. exact (op_sized _ _ _ O0). }
  destruct (linear_combination_ok on_space ops id sp q [ic] Hid ltac:(discriminate) F) as (od & E & A1 & A2 & _).
  unfold linear_combination in E. rewrite Hid in E. apply bind_inv in E. destruct E as ([fl od'] & E & E'). injection E' as ->.
  cbn [for_each] in E. apply bind_inv in E. destruct E as ([fl' od'] & E & E'). injection E' as -> ->.
  unfold linear_channel. rewrite Hid. cbn [for_each]. rewrite (lc_agree _ _ _ _ _ E). cbn [bind].
  assert (fl = false) as ->.
  { clear - E. unfold lc_term in E. destruct (if String.eqb (fst ic) id then _ else _); [|discriminate]. apply bind_inv in E. destruct E as (? & _ & E). apply bind_inv in E. destruct E as (? & _ & E).
    apply bind_inv in E. destruct E as (? & _ & E). congruence. }
  rewrite (ob_term_q ops id ic' od _ q o q' A2 Hn Ho Hq Hne eq_refl). reflexivity.
Qed.

(** ** ew-gen *)
Lemma neutral : forall J0 g0 a b, allowed (J0, g0, 0)%Z a b -> ll_sp a = ll_sp b.
Proof. intros J0 g0 [s l j] [s' l' j'] (_ & _ & H). cbn in *. destruct s, s'; cbn in H; congruence || lia. Qed.
Lemma em_species_ok : forall t a b c, ll_sp a = ll_sp b -> em_species t a b c = Ok (species_factor t a * c).
Proof.
  intros t [s l j] [s' l' j'] c H. cbn in H. subst s'. unfold em_species, species_factor. cbn [ll_sp]. destruct s; cbn [osp_eqb cassert bind]; destruct t as [[]|]; cbn; f_equal; ring.
Qed.
Definition label_factor (t : option ospecies) (sp : lspace) (I : nat) : R := match label_of sp I with Some a => species_factor t a | None => 0 end.
Lemma em_update : forall sp J0 g0 t (f : llabel -> llabel -> outcome R) c m, op_ok sp sp (sectors_of sp sp (J0, g0, 0)%Z) m ->
  (forall a b, f a b = em_species t a b c) ->
  exists r, update_blocks sp f (sectors_of sp sp (J0, g0, 0)%Z) m = Ok r /\ tensor_op sp (J0, g0, 0)%Z (sectors_of sp sp (J0, g0, 0)%Z) r
  /\ forall I i K k a n, orbital_at sp I i a n -> entry (sectors_of sp sp (J0, g0, 0)%Z) r I i K k = species_factor t a * c * entry (sectors_of sp sp (J0, g0, 0)%Z) m I i K k.
Proof.
  intros sp J0 g0 t f c m O Hf.
  destruct (update_ok sp f (fun I _ => label_factor t sp I * c) _ m O) as (r & E & Or & A).
  { intros I K x y Hin Hx Hy. apply (sectors_allowed sp _ I K _ _ Hx Hy) in Hin. rewrite Hf, em_species_ok by exact (neutral _ _ _ _ Hin). unfold label_factor, label_of. rewrite Hx. reflexivity. }
  exists r. split; [exact E|]. split; [split; [exact Or|reflexivity]|]. intros I i K k a n (ns & H1 & _). rewrite A. unfold label_factor, label_of. rewrite H1. cbn. ring.
Qed.
Theorem target_E_ok : forall sp b0 radial lambda species f, find_op Z.eqb radial lambda = Some f -> file_ok f sp (lambda, Z.rem lambda 2, 0)%Z ->
  exists g, target_E sp (Some b0) radial lambda species = Ok g /\ file_ok g sp (lambda, Z.rem lambda 2, 0)%Z
  /\ forall I i K k a n, orbital_at sp I i a n -> state sp K k -> file_entry g I i K k = species_factor species a * powerRZ b0 lambda * file_entry f I i K k.
Proof.
  intros sp b0 radial lambda species f Hf (B & _ & _ & O & S). unfold target_E. rewrite Hf, B, lspace_eqb_refl. cbn [cassert bind].
  rewrite S in O. destruct (em_update sp lambda (Z.rem lambda 2) species (fun b k => b0' <- get (Some b0) ;; em_species species b k (prefactor_E b0' lambda)) (prefactor_E b0 lambda) _ O) as (r & E & Or & A); [reflexivity|].
  rewrite E. cbn [bind]. eexists. split; [reflexivity|]. split; [repeat split; try apply Or|]. intros I i K k a n H1 H2. unfold file_entry. cbn [of_sectors of_blocks]. rewrite (A I i K k a n H1), S. reflexivity.
Qed.
Theorem target_E_missing : forall sp b0 radial lambda species, find_op Z.eqb radial lambda = None -> target_E sp b0 radial lambda species = Exit.
Proof. intros. unfold target_E. rewrite H. reflexivity. Qed.
Theorem target_E_space : forall sp b0 radial lambda species f, find_op Z.eqb radial lambda = Some f -> of_bra f <> sp -> target_E sp b0 radial lambda species = AssertFail.
Proof. intros. unfold target_E. rewrite H, lspace_eqb_ne by assumption. reflexivity. Qed.
Theorem target_E_unset : forall sp radial lambda species f, find_op Z.eqb radial lambda = Some f -> file_ok f sp (lambda, Z.rem lambda 2, 0)%Z ->
  of_sectors f <> [] -> target_E sp None radial lambda species = UB.
Proof.
  intros sp radial lambda species f Hf (B & _ & _ & O & S) Hne. unfold target_E. rewrite Hf, B, lspace_eqb_refl. cbn [cassert bind]. rewrite S in O, Hne.
  destruct (sectors_of sp sp (lambda, Z.rem lambda 2, 0%Z)) as [|[I K] s] eqn:Es; [congruence|].
  destruct (sectors_range sp sp (lambda, Z.rem lambda 2, 0%Z) (I, K)) as [HI HK]; [rewrite Es; left; reflexivity|]. cbn [fst snd] in HI, HK.
  destruct O as [_ F]. destruct (of_blocks f) as [|m0 ms']; [inversion F|]. unfold update_blocks. cbn [length seq for_each nth_error get bind fst snd].
  destruct (nth_error sp I) as [x|] eqn:Ex; [|apply nth_error_None in Ex; unfold lspace in *; lia]. destruct (nth_error sp K) as [y|] eqn:Ey; [|apply nth_error_None in Ey; unfold lspace in *; lia]. reflexivity.
Qed.

Section Ew.
Variable racah : Z -> Z -> Z -> Z -> Z -> Z -> R.
Variable inv_sqrt_4pi : R.
Lemma prefactor_M_ok : forall b0 orbital lambda, (1 <= lambda)%Z ->
  prefactor_M b0 orbital lambda = Ok (gradient_factor b0 lambda * (if orbital then IZR (Z.quot 2 (lambda + 1)) else 1)).
Proof. intros b0 orbital lambda H. unfold prefactor_M, gradient_factor, hat. destruct (Z.ltb_spec lambda 0); [lia|]. reflexivity. Qed.
Lemma target_M_gen : forall sp b0 radial am (orbital : bool) lambda species f, (1 <= lambda)%Z -> find_op am_eqb am (if orbital then AOrbital else ASpin) = Some f -> file_ok f sp (1, 0, 0)%Z ->
  (lambda = 1%Z -> exists g, target_M racah inv_sqrt_4pi sp (Some b0) radial am orbital lambda species = Ok g /\ file_ok g sp (lambda, Z.rem (lambda - 1) 2, 0)%Z
     /\ forall I i K k a n, orbital_at sp I i a n -> state sp K k ->
        file_entry g I i K k = species_factor species a * (gradient_factor b0 lambda * (if orbital then IZR (Z.quot 2 (lambda + 1)) else 1)) * (inv_sqrt_4pi * file_entry f I i K k))
  /\ (forall r, lambda <> 1%Z -> find_op Z.eqb radial (lambda - 1)%Z = Some r -> file_ok r sp (lambda - 1, Z.rem (lambda - 1) 2, 0)%Z ->
     (forall j' j j'' Ja Jb J, ~ coupled j (2 * J) j' -> racah j' j j'' Ja Jb J = 0) ->
     exists g, target_M racah inv_sqrt_4pi sp (Some b0) radial am orbital lambda species = Ok g /\ file_ok g sp (lambda, Z.rem (lambda - 1) 2, 0)%Z
     /\ forall I i K k a n, orbital_at sp I i a n -> state sp K k ->
        file_entry g I i K k = species_factor species a * (gradient_factor b0 lambda * (if orbital then IZR (Z.quot 2 (lambda + 1)) else 1))
          * product_entry racah sp (1, 0, 0)%Z (lambda - 1, Z.rem (lambda - 1) 2, 0)%Z (lambda, Z.rem (lambda - 1) 2, 0)%Z f r I i K k).
Proof.
  intros sp b0 radial am orbital lambda species f Hl Hf (B & _ & Q & O & S). unfold target_M. rewrite Hf, B, lspace_eqb_refl. cbn [cassert bind]. split.
  - intros ->. cbn [Z.sub Z.add Z.opp Pos.add Z.pos_sub Z.eqb]. change (Z.rem 0 2) with 0%Z. rewrite S in O.
    destruct (update_ok sp (fun _ _ => Ok inv_sqrt_4pi) (fun _ _ => inv_sqrt_4pi) _ (of_blocks f) O) as (m0 & E0 & O0 & A0); [reflexivity|]. rewrite E0. cbn [bind].
    destruct (em_update sp 1 0 species (fun b k => b0' <- get (Some b0) ;; p <- prefactor_M b0' orbital 1 ;; em_species species b k p)
      (gradient_factor b0 1 * (if orbital then IZR (Z.quot 2 (1 + 1)) else 1)) m0 O0) as (r & E & Or & A).
    { intros a b. cbn [get bind]. rewrite prefactor_M_ok by exact Hl. reflexivity. }
    rewrite E. cbn [bind]. eexists. split; [reflexivity|]. split; [repeat split; apply Or|]. intros I i K k a n H1 H2. unfold file_entry. cbn [of_sectors of_blocks]. rewrite (A I i K k a n H1), A0, S. destruct orbital; [change (1 + 1)%Z with 2%Z|]; ring.
  - intros r Hne Hr (Br & _ & Qr & Or) Hz. destruct (Z.eqb_spec (lambda - 1) 0) as [Hz1|_]; [lia|]. rewrite Hr, Br, lspace_eqb_refl. cbn [cassert bind]. rewrite Q, Qr.
    destruct (tensor_complete racah sp (1, 0, 0)%Z (of_sectors f) (of_blocks f) (lambda - 1, Z.rem (lambda - 1) 2, 0)%Z (of_sectors r) (of_blocks r) (lambda, Z.rem (lambda - 1) 2, 0)%Z) as (m0 & E0 & [O0 _] & A0);
      [split; assumption|exact Or| |exact Hz|].
    { unfold product_qn, coupled. split; [lia|]. split; [exists (Z.rem (lambda - 1) 2); lia|reflexivity]. }
    rewrite E0. cbn [bind].
    destruct (em_update sp lambda (Z.rem (lambda - 1) 2) species (fun b k => b0' <- get (Some b0) ;; p <- prefactor_M b0' orbital lambda ;; em_species species b k p)
      (gradient_factor b0 lambda * (if orbital then IZR (Z.quot 2 (lambda + 1)) else 1)) m0 O0) as (r' & E & Or' & A).
    { intros a b. cbn [get bind]. rewrite prefactor_M_ok by exact Hl. reflexivity. }
    rewrite E. cbn [bind]. eexists. split; [reflexivity|]. split; [repeat split; apply Or'|]. intros I i K k a n H1 H2. unfold file_entry at 1. cbn [of_sectors of_blocks]. rewrite (A I i K k a n H1).
    rewrite (A0 I i K k (orbital_sub _ _ _ _ _ H1) H2). reflexivity.
Qed.
Theorem target_M1_ok : forall sp b0 radial am (orbital : bool) species f, find_op am_eqb am (if orbital then AOrbital else ASpin) = Some f -> file_ok f sp (1, 0, 0)%Z ->
  exists g, target_M racah inv_sqrt_4pi sp (Some b0) radial am orbital 1 species = Ok g /\ file_ok g sp (1, 0, 0)%Z
  /\ forall I i K k a n, orbital_at sp I i a n -> state sp K k ->
     file_entry g I i K k = species_factor species a * (sqrt 3 * inv_sqrt_4pi) * file_entry f I i K k.
Proof.
  intros sp b0 radial am orbital species f Hf O. destruct (target_M_gen sp b0 radial am orbital 1 species f ltac:(lia) Hf O) as [H _]. destruct (H eq_refl) as (g & E & Og & A).
  exists g. split; [exact E|]. split; [exact Og|]. intros I i K k a n H1 H2. rewrite (A I i K k a n H1 H2). unfold gradient_factor. change (1 - 1)%Z with 0%Z. change (2 * 1 + 1)%Z with 3%Z. change (Z.quot 2 (1 + 1)) with 1%Z.
  cbn [powerRZ]. rewrite sqrt_1. destruct orbital; ring.
Qed.
Theorem target_Ds_ok : forall sp b0 radial am lambda species f r, (2 <= lambda)%Z -> find_op am_eqb am ASpin = Some f -> file_ok f sp (1, 0, 0)%Z ->
  find_op Z.eqb radial (lambda - 1)%Z = Some r -> file_ok r sp (lambda - 1, Z.rem (lambda - 1) 2, 0)%Z ->
  (forall j' j j'' Ja Jb J, ~ coupled j (2 * J) j' -> racah j' j j'' Ja Jb J = 0) ->
  exists g, target_M racah inv_sqrt_4pi sp (Some b0) radial am false lambda species = Ok g /\ file_ok g sp (lambda, Z.rem (lambda - 1) 2, 0)%Z
  /\ forall I i K k a n, orbital_at sp I i a n -> state sp K k ->
     file_entry g I i K k = species_factor species a * gradient_factor b0 lambda
       * product_entry racah sp (1, 0, 0)%Z (lambda - 1, Z.rem (lambda - 1) 2, 0)%Z (lambda, Z.rem (lambda - 1) 2, 0)%Z f r I i K k.
Proof.
  intros sp b0 radial am lambda species f r Hl Hf O Hr Or Hz. destruct (target_M_gen sp b0 radial am false lambda species f ltac:(lia) Hf O) as [_ H].
  destruct (H r ltac:(lia) Hr Or Hz) as (g & E & Og & A). exists g. split; [exact E|]. split; [exact Og|]. intros I i K k a n H1 H2. rewrite (A I i K k a n H1 H2). ring.
Qed.
Theorem target_Dl_zero : forall sp b0 radial am lambda species f r, (2 <= lambda)%Z -> find_op am_eqb am AOrbital = Some f -> file_ok f sp (1, 0, 0)%Z ->
  find_op Z.eqb radial (lambda - 1)%Z = Some r -> file_ok r sp (lambda - 1, Z.rem (lambda - 1) 2, 0)%Z ->
  (forall j' j j'' Ja Jb J, ~ coupled j (2 * J) j' -> racah j' j j'' Ja Jb J = 0) ->
  exists g, target_M racah inv_sqrt_4pi sp (Some b0) radial am true lambda species = Ok g /\ file_ok g sp (lambda, Z.rem (lambda - 1) 2, 0)%Z
  /\ forall I i K k, state sp I i -> state sp K k -> file_entry g I i K k = 0.
Proof.
  intros sp b0 radial am lambda species f r Hl Hf O Hr Or Hz. destruct (target_M_gen sp b0 radial am true lambda species f ltac:(lia) Hf O) as [_ H].
  destruct (H r ltac:(lia) Hr Or Hz) as (g & E & Og & A). exists g. split; [exact E|]. split; [exact Og|]. intros I i K k H1 H2. destruct (state_orbital _ _ _ H1) as (a & n & H3). rewrite (A I i K k a n H3 H2).
  rewrite Z.quot_small by lia. ring.
Qed.
Theorem target_F_ok : forall sp am iso f, find_op Z.eqb iso 1%Z = Some f -> file_ok f sp (0, 0, 1)%Z ->
  exists g, target_weak racah sp am iso false = Ok g /\ file_ok g sp (0, 0, 1)%Z /\ forall I i K k, file_entry g I i K k = file_entry f I i K k.
Proof.
  intros sp am iso f Hf (B & _ & Q & O & S). unfold target_weak. rewrite Hf, B, lspace_eqb_refl. cbn [cassert bind]. eexists. split; [reflexivity|].
  split; [split; [reflexivity|]; split; [reflexivity|]; split; [reflexivity|]; split; [rewrite S in O; exact O|reflexivity]|]. intros. unfold file_entry. cbn [of_sectors of_blocks]. rewrite S. reflexivity.
Qed.
Theorem target_GT_ok : forall sp am iso f a, find_op Z.eqb iso 1%Z = Some f -> file_ok f sp (0, 0, 1)%Z -> find_op am_eqb am ASpin = Some a -> file_ok a sp (1, 0, 0)%Z ->
  (forall j' j j'' Ja Jb J, ~ coupled j (2 * J) j' -> racah j' j j'' Ja Jb J = 0) ->
  exists g, target_weak racah sp am iso true = Ok g /\ file_ok g sp (1, 0, 1)%Z
  /\ forall I i K k, state sp I i -> state sp K k -> file_entry g I i K k = product_entry racah sp (1, 0, 0)%Z (0, 0, 1)%Z (1, 0, 1)%Z a f I i K k.
Proof.
  intros sp am iso f a Hf (B & _ & Q & O) Ha (Ba & _ & Qa & Oa) Hz. unfold target_weak. rewrite Hf, B, lspace_eqb_refl. cbn [cassert bind]. rewrite Ha, Ba, lspace_eqb_refl. cbn [cassert bind]. rewrite Q, Qa.
  destruct (tensor_complete racah sp (1, 0, 0)%Z (of_sectors a) (of_blocks a) (0, 0, 1)%Z (of_sectors f) (of_blocks f) (1, 0, 1)%Z) as (m0 & E0 & O0 & A0); [exact Oa|exact O| |exact Hz|].
  { unfold product_qn, coupled. split; [lia|]. split; [exists 0%Z; lia|reflexivity]. }
  rewrite E0. cbn [bind]. eexists. split; [reflexivity|]. split; [repeat split; apply O0|]. intros I i K k H1 H2. unfold file_entry at 1. cbn [of_sectors of_blocks]. exact (A0 I i K k H1 H2).
Qed.
End Ew.
