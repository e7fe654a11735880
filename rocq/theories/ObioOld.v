(** Further proofs for C34-C36, C59, C61: headers of versions 0 and 1, data files with missing or bad words, the constant. *)
From Coq Require Import List ZArith Reals Bool Ascii Lia Lra.
From Coq Require Import Machin.
From Verif Require Import Base RMat H2Model MapModel OscModel OscSpec BlockModel BlockSpec BlockProof ObioModel ObioSpec ObioProof ObioFinal.
Import ListNotations.
Open Scope R_scope.

(** * Old headers *)
Section Old.
Variable E : oenv.
Notation line := (list (tok (oT E))).

(** the orbital lines with their numbers in front, as the parser of the old format takes them *)
Definition numbered (ls : list line) : list (nat * line) := combine (seq 0 (length ls)) ls.

Lemma read_orbitals_old : forall v bls kls rest old bra ket, (v <> 2)%Z -> Forall (fun l => l <> []) bls -> Forall (fun l => l <> []) kls ->
  o_parse_old E (numbered bls) = Ok bra -> o_parse_old E (numbered kls) = Ok ket ->
  (let '(b, (l', s')) := read_lines E (Z.to_nat (Z.of_nat (length bls))) old (open_text (bls ++ kls ++ rest) true) in
   x <- parse_orbitals E v b ;;
   let '(k, (_, s'')) := read_lines E (Z.to_nat (Z.of_nat (length kls))) l' s' in
   y <- parse_orbitals E v k ;; Ok (x, y, s'')) = Ok (bra, ket, open_text rest true).
Proof.
  intros v bls kls rest old bra ket Hv Hb Hk Pb Pk. rewrite !Nat2Z.id.
  assert (R : forall ls old r, Forall (fun l => l <> []) ls -> exists old', read_lines E (length ls) old (open_text (ls ++ r) true) = (ls, (old', open_text r true))).
  { intros [|l ls] o r H; [exists o; reflexivity|]. apply (read_lines_text E (l :: ls) 0 o r H). discriminate. }
  destruct (R bls old (kls ++ rest) Hb) as [o1 E1]. rewrite E1. unfold parse_orbitals. rewrite (proj2 (Z.eqb_neq v 2) Hv). fold (numbered bls). rewrite Pb. cbn [bind].
  destruct (R kls o1 rest Hk) as [o2 E2]. rewrite E2. fold (numbered kls). rewrite Pk. reflexivity.
Qed.

Definition old_operator (ty : option ascii) (J0 g0 Tz0 : Z) (bra ket : list (oinfo (oD E))) : obme E :=
  Obme E ty J0 g0 Tz0 (mk_wspace bra) (mk_wspace ket) (mk_lsectors (o_allowed E) (forget (mk_wspace bra)) (forget (mk_wspace ket)) J0 g0 Tz0).

(** the first lines of a file of version 0, and of version 1 with the labels of the operator given or (mode R) not *)
Definition header_0 (c : ascii) (l0max Tz0 nb nk : Z) : list line := [[TInt 0]; [TChr c; TInt l0max; TInt Tz0; TInt nb; TInt nk]].
Definition header_1 (c : ascii) (p : Z) (mode : line) (nb nk : Z) : list line := [[TInt 1]; [TChr c; TInt p]; mode; [TInt nb; TInt nk]].

Lemma get_good : forall old l r, l <> [] -> get_line (T := oT E) old (open_text (l :: r) true) = (l, open_text r true).
Proof. intros. apply (get_text E 0 old l r H). Qed.

Lemma header_0_read : forall c l0max Tz0 bls kls rest bra ket, in_i32 l0max = true -> in_i32 Tz0 = true ->
  (Z.of_nat (length bls) < two31)%Z -> (Z.of_nat (length kls) < two31)%Z -> Forall (fun l => l <> []) bls -> Forall (fun l => l <> []) kls ->
  o_parse_old E (numbered bls) = Ok bra -> o_parse_old E (numbered kls) = Ok ket ->
  let file := header_0 c l0max Tz0 (Z.of_nat (length bls)) (Z.of_nat (length kls)) ++ bls ++ kls ++ rest in
  (l0max = 0%Z -> read_header E (open_text file true) = Ok (old_operator None 0 0 Tz0 bra ket, open_text rest true))
  /\ (l0max <> 0%Z -> read_header E (open_text file true) = AssertFail).
Proof.
  intros c l0max Tz0 bls kls rest bra ket Hl HT Hnb Hnk Hb Hk Pb Pk. unfold header_0. cbv zeta. cbn [app].
  assert (A : forall k, (let '(l0, s1) := get_line [] (open_text ([TInt 0] :: [TChr c; TInt l0max; TInt Tz0; TInt (Z.of_nat (length bls)); TInt (Z.of_nat (length kls))] :: bls ++ kls ++ rest) true) in k l0 s1)
     = k [TInt 0] (open_text ([TChr c; TInt l0max; TInt Tz0; TInt (Z.of_nat (length bls)); TInt (Z.of_nat (length kls))] :: bls ++ kls ++ rest) true) :> outcome (obme E * stream (oT E))).
  { intros k. rewrite get_good by discriminate. reflexivity. }
  unfold read_header. rewrite A. rewrite scan_int_ok by reflexivity. cbn [bind]. change (0 =? 0)%Z with true. cbv iota.
  rewrite get_good by discriminate. cbn [scan_c bind]. rewrite scan_int_ok by exact Hl. cbn [bind]. rewrite scan_int_ok by exact HT. cbn [bind].
  rewrite scan_size_ok by lia. cbn [bind]. rewrite scan_size_ok by lia. cbn [bind]. split.
  - intros ->. change (0 =? 0)%Z with true. cbn [cassert bind].
    pose proof (read_orbitals_old 0 bls kls rest [TChr c; TInt 0; TInt Tz0; TInt (Z.of_nat (length bls)); TInt (Z.of_nat (length kls))] bra ket ltac:(discriminate) Hb Hk Pb Pk) as R.
    destruct (read_lines E (Z.to_nat (Z.of_nat (length bls))) _ _) as [b [l' s']]. destruct (parse_orbitals E 0 b) as [x| | |]; cbn [bind] in R |- *; try discriminate R.
    destruct (read_lines E (Z.to_nat (Z.of_nat (length kls))) l' s') as [k [l'' s'']]. destruct (parse_orbitals E 0 k) as [y| | |]; cbn [bind] in R |- *; try discriminate R.
    injection R as -> -> ->. reflexivity.
  - intros H. rewrite (proj2 (Z.eqb_neq l0max 0) H). reflexivity.
Qed.

Lemma header_1_read : forall c p mode J0 g0 Tz0 bls kls rest bra ket, in_i32 p = true -> in_i32 J0 = true -> in_i32 g0 = true -> in_i32 Tz0 = true ->
  (mode = [TChr "S"%char; TInt J0; TInt g0; TInt Tz0] \/ (mode = [TChr "R"%char; TInt 0; TInt Tz0] /\ J0 = 0%Z /\ g0 = 0%Z)) ->
  (Z.of_nat (length bls) < two31)%Z -> (Z.of_nat (length kls) < two31)%Z -> Forall (fun l => l <> []) bls -> Forall (fun l => l <> []) kls ->
  o_parse_old E (numbered bls) = Ok bra -> o_parse_old E (numbered kls) = Ok ket ->
  read_header E (open_text (header_1 c p mode (Z.of_nat (length bls)) (Z.of_nat (length kls)) ++ bls ++ kls ++ rest) true)
  = Ok (old_operator (Some "R"%char) J0 g0 Tz0 bra ket, open_text rest true).
Proof.
  intros c p mode J0 g0 Tz0 bls kls rest bra ket Hp HJ Hg HT Hm Hnb Hnk Hb Hk Pb Pk. unfold header_1. cbn [app].
  assert (Hm0 : mode <> []) by (destruct Hm as [->|[-> _]]; discriminate).
  unfold read_header. rewrite get_good by discriminate. rewrite scan_int_ok by reflexivity. cbn [bind]. change (1 =? 0)%Z with false. change (1 =? 1)%Z with true. cbv iota.
  rewrite get_good by discriminate. cbn [scan_c bind]. rewrite scan_int_ok by exact Hp. cbn [bind]. rewrite get_good by exact Hm0.
  pose proof (read_orbitals_old 1 bls kls rest [TInt (Z.of_nat (length bls)); TInt (Z.of_nat (length kls))] bra ket ltac:(discriminate) Hb Hk Pb Pk) as R.
  destruct Hm as [->|(-> & -> & ->)]; cbn [scan_c bind].
  - change (Ascii.eqb "S" "R") with false. change (Ascii.eqb "S" "S") with true. cbv iota. rewrite scan_int_ok by exact HJ. cbn [bind]. rewrite scan_int_ok by exact Hg. cbn [bind].
    rewrite scan_int_ok by exact HT. cbn [bind]. rewrite get_good by discriminate. rewrite scan_size_ok by lia. cbn [bind]. rewrite scan_size_ok by lia. cbn [bind].
    destruct (read_lines E (Z.to_nat (Z.of_nat (length bls))) _ _) as [b [l' s']]. destruct (parse_orbitals E 1 b) as [x| | |]; cbn [bind] in R |- *; try discriminate R.
    destruct (read_lines E (Z.to_nat (Z.of_nat (length kls))) l' s') as [k [l'' s'']]. destruct (parse_orbitals E 1 k) as [y| | |]; cbn [bind] in R |- *; try discriminate R.
    injection R as -> -> ->. reflexivity.
  - change (Ascii.eqb "R" "R") with true. cbv iota. rewrite scan_int_ok by reflexivity. cbn [bind]. change (0 =? 0)%Z with true. cbn [cassert bind].
    rewrite scan_int_ok by exact HT. cbn [bind]. rewrite get_good by discriminate. rewrite scan_size_ok by lia. cbn [bind]. rewrite scan_size_ok by lia. cbn [bind].
    destruct (read_lines E (Z.to_nat (Z.of_nat (length bls))) _ _) as [b [l' s']]. destruct (parse_orbitals E 1 b) as [x| | |]; cbn [bind] in R |- *; try discriminate R.
    destruct (read_lines E (Z.to_nat (Z.of_nat (length kls))) l' s') as [k [l'' s'']]. destruct (parse_orbitals E 1 k) as [y| | |]; cbn [bind] in R |- *; try discriminate R.
    injection R as -> -> ->. reflexivity.
Qed.
End Old.

(** * Data files with a bad word, or without enough words *)
Lemma loop_failed_zero : forall sp info ws d, read_data_loop sp info 0 true ws d = read_data_loop sp info 0 false (map Some (repeat 0 (length info))) d.
Proof.
  intros sp info. induction info as [|i info IH]; intros ws d; [reflexivity|]. cbn [read_data_loop length repeat map extract].
  replace (0 * k_sqrt_4pi / hat (fl_2j (il_bra i))) with 0 by (unfold Rdiv; ring).
  destruct (put_labelled sp d (il_bra i) (il_ket i) (il_J0 i) 0); cbn [bind]; [apply IH|reflexivity|reflexivity|reflexivity].
Qed.
Lemma loop_x : forall sp info vs x y rest d, (length info <= length vs)%nat ->
  read_data_loop sp info x false (map Some vs ++ rest) d = read_data_loop sp info y false (map Some vs ++ rest) d.
Proof. intros sp [|i info] [|v vs] x y rest d H; cbn [length] in H; try reflexivity. lia. Qed.

(** From a word that is not a number on, the elements are zero. *)
Lemma bad_word : forall al sp J0_max g0 Tz0 info vs rest, (length vs < length info)%nat ->
  read_multi al sp J0_max g0 Tz0 info (length info) (map Some vs ++ None :: rest)
  = read_multi al sp J0_max g0 Tz0 info (length info) (map Some (vs ++ repeat 0 (length info - length vs))).
Proof.
  intros al sp J0_max g0 Tz0 info vs rest H. unfold read_multi. destruct (cassert _); cbn [bind]; try reflexivity.
  destruct (init_storage al sp 0 J0_max g0 Tz0) as [d| | |]; cbn [bind]; try reflexivity.
  cut (forall x info d, (length vs < length info)%nat -> read_data_loop sp info x false (map Some vs ++ None :: rest) d
    = read_data_loop sp info x false (map Some (vs ++ repeat 0 (length info - length vs))) d); [intros C; apply C; exact H|]. clear H d info.
  induction vs as [|v vs IH]; intros x [|i info] d H; cbn [length] in H; try lia.
  - cbn [map app length Nat.sub repeat read_data_loop extract]. replace (0 * k_sqrt_4pi / hat (fl_2j (il_bra i))) with 0 by (unfold Rdiv; ring).
    destruct (put_labelled sp d (il_bra i) (il_ket i) (il_J0 i) 0); cbn [bind]; [apply loop_failed_zero|reflexivity|reflexivity|reflexivity].
  - cbn [map app length Nat.sub read_data_loop extract]. destruct (put_labelled sp d _ _ _ _); cbn [bind]; [|reflexivity|reflexivity|reflexivity]. apply IH. lia.
Qed.

(** the values that stand for missing ones: each the one stored before it *)
Fixpoint continued (x : R) (info : list info_line) : list R :=
  match info with [] => [] | i :: info' => x :: continued (x * k_sqrt_4pi / sqrt (IZR (fl_2j (il_bra i) + 1))) info' end.
Lemma continued_length : forall info x, length (continued x info) = length info.
Proof. induction info as [|i info IH]; intros x; [reflexivity|]. cbn [continued length]. rewrite IH. reflexivity. Qed.
Lemma loop_failed : forall sp info x y ws d, read_data_loop sp info x true ws d = read_data_loop sp info y false (map Some (continued x info)) d.
Proof.
  intros sp info. induction info as [|i info IH]; intros x y ws d; [reflexivity|]. cbn [read_data_loop continued map extract]. unfold hat at 1 3.
  destruct (put_labelled sp d _ _ _ _); cbn [bind]; [apply IH|reflexivity|reflexivity|reflexivity].
Qed.
(** A file that ends too early is read as if each missing value were the element stored before it. *)
Lemma missing_words : forall al sp J0_max g0 Tz0 pre i post vs v, length vs = length pre ->
  read_multi al sp J0_max g0 Tz0 (pre ++ i :: post) (length (pre ++ i :: post)) (map Some (vs ++ [v]))
  = read_multi al sp J0_max g0 Tz0 (pre ++ i :: post) (length (pre ++ i :: post))
      (map Some (vs ++ v :: continued (v * k_sqrt_4pi / sqrt (IZR (fl_2j (il_bra i) + 1))) post)).
Proof.
  intros al sp J0_max g0 Tz0 pre i post vs v H. unfold read_multi. destruct (cassert _); cbn [bind]; try reflexivity.
  destruct (init_storage al sp 0 J0_max g0 Tz0) as [d| | |]; cbn [bind]; try reflexivity.
  cut (forall x pre d, length vs = length pre -> read_data_loop sp (pre ++ i :: post) x false (map Some (vs ++ [v])) d
    = read_data_loop sp (pre ++ i :: post) x false (map Some (vs ++ v :: continued (v * k_sqrt_4pi / sqrt (IZR (fl_2j (il_bra i) + 1))) post)) d); [intros C; apply C; exact H|]. clear H d pre.
  induction vs as [|w vs IH]; intros x [|i0 pre] d H; try discriminate H.
  - cbn [map app read_data_loop extract]. destruct (put_labelled sp d _ _ _ _) as [d1| | |]; cbn [bind]; try reflexivity. unfold hat. set (x2 := v * k_sqrt_4pi / sqrt (IZR (fl_2j (il_bra i) + 1))).
    destruct post as [|b post]; [reflexivity|]. rewrite <- (loop_failed sp (b :: post) x2 x2 []). reflexivity.
  - cbn [map app read_data_loop extract]. destruct (put_labelled sp d _ _ _ _); cbn [bind]; [|reflexivity|reflexivity|reflexivity]. apply IH. injection H as H. exact H.
Qed.

(** * The constant is the square root of 4 pi *)
Lemma pi_bounds : 31415926535 / 10 ^ 10 < PI < 31415926536 / 10 ^ 10.
Proof.
  destruct (PI_2_3_7_ineq 5) as [L U]. unfold tg_alt, PI_2_3_7_tg, Ratan_seq in L, U.
  cbn [sum_f_R0 Nat.mul Nat.add pow] in L, U. cbn [INR] in L, U. lra.
Qed.
Lemma constant_value : Rabs (k_sqrt_4pi * k_sqrt_4pi - 4 * PI) < 1 / 10 ^ 9 /\ 0 < k_sqrt_4pi.
Proof.
  pose proof pi_bounds as P. assert (K : 125663706143 / 10 ^ 10 < k_sqrt_4pi * k_sqrt_4pi < 125663706144 / 10 ^ 10) by (unfold k_sqrt_4pi; lra).
  split; [apply Rabs_def1; lra|unfold k_sqrt_4pi; lra].
Qed.

(** * Orbitals of a single file *)
Lemma orbital_carried : forall W (o : oinfo W) sp P p, carries sp (full_labels o) P p
  <-> exists x, nth_error sp P = Some x /\ fst x = oi_lab o /\ nth_error (snd x) p = Some (oi_n o).
Proof.
  intros W [[s l tj] n w] sp P p. unfold carries, full_labels. cbn [fl_sp fl_n fl_l fl_2j oi_lab oi_n ll_sp ll_l ll_2j]. split.
  - intros (s' & x & E & H1 & H2 & H3). injection E as <-. exists x. auto.
  - intros (x & H1 & H2 & H3). exists s, x. auto.
Qed.

(** a file of version 1 with one orbital on either side *)
Definition oldE : oenv := {| oD := Z; oT := Z; o_fmt := fun z => z; o_scan := fun _ => None; o_chop := fun z => z; o_orb_lines := fun _ => [];
  o_parse := fun _ => Exit; o_parse_old := fun ls => Ok (map (fun x => OI (LL SP 0 1) (Z.of_nat (fst x)) 0%Z) ls); o_allowed := fun _ _ _ _ _ => false |}.
Lemma old_case : read_file oldE 0%Z [[TInt 1]; [TChr "r"%char; TInt 2]; [TChr "S"%char; TInt 2; TInt 0; TInt 0]; [TInt 1; TInt 1]; [TInt 7]; [TInt 8]] true
  = Ok (Obme oldE (Some "R"%char) 2 0 0 [(LL SP 0 1, [(0, 0)])] [(LL SP 0 1, [(0, 0)])] [], [])%Z.
Proof. reflexivity. Qed.
(** five, a bad word and nothing more: the second and third element are zero; five and nothing more *)
Lemma bad_case : read_multi (fun _ _ _ a b => llabel_eqb a b) [(LL SP 0 1, [0; 1]%Z)] 0 0 0
    [IL (FL (Some SP) 0 0 1) (FL (Some SP) 0 0 1) 0; IL (FL (Some SP) 0 0 1) (FL (Some SP) 1 0 1) 0; IL (FL (Some SP) 1 0 1) (FL (Some SP) 1 0 1) 0] 3 [Some 5; None]
  = read_multi (fun _ _ _ a b => llabel_eqb a b) [(LL SP 0 1, [0; 1]%Z)] 0 0 0
    [IL (FL (Some SP) 0 0 1) (FL (Some SP) 0 0 1) 0; IL (FL (Some SP) 0 0 1) (FL (Some SP) 1 0 1) 0; IL (FL (Some SP) 1 0 1) (FL (Some SP) 1 0 1) 0] 3 [Some 5; Some 0; Some 0].
Proof. exact (bad_word _ _ _ _ _ [IL (FL (Some SP) 0 0 1) (FL (Some SP) 0 0 1) 0; IL (FL (Some SP) 0 0 1) (FL (Some SP) 1 0 1) 0; IL (FL (Some SP) 1 0 1) (FL (Some SP) 1 0 1) 0] [5] [] ltac:(cbn; lia)). Qed.
