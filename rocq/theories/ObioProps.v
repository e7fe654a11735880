(** C34-C37, C58-C61: one-body matrix element files, density files, one-body observables. *)
From Coq Require Import List ZArith Reals Bool Ascii Lra Lia.
From Verif Require Import Base RMat H2Model MapModel OscModel OscSpec BlockModel BlockSpec BlockProof ObioModel ObioSpec ObioProof ObioFinal ObioMore ObioOld.
Import ListNotations.
Open Scope R_scope.

(** C34: an operator written to a file is read back with the same type, ranks, spaces and sectors, and with the printed
    values in its blocks. *)
Theorem C34_round_trip : forall E d verbose o ms, obme_ok E o -> Forall2 (block_fits E o) (ob_sectors E o) ms -> Forall (block_prints E) ms ->
  exists lines ms', write_file E verbose o ms = Ok lines /\ read_file E d lines true = Ok (o, ms') /\ Forall2 (printed_block E) ms ms'.
Proof. exact round_trip. Qed.
Print Assumptions C34_round_trip.
(** blocks that do not fit the sectors are refused *)
Theorem C34_assert : forall E verbose o ms, (exists c, ob_type E o = Some c) -> ~ Forall2 (block_fits E o) (ob_sectors E o) ms ->
  write_file E verbose o ms = AssertFail.
Proof. exact write_wrong. Qed.
Print Assumptions C34_assert.

(** example: two orbitals in one subspace and one in another, scalar operator, numbers chopped below 3 *)
Definition xl (o : oinfo Z) : list (tok Z) := [TInt (osp_code (ll_sp (oi_lab o))); TInt (oi_n o); TInt (ll_l (oi_lab o)); TInt (ll_2j (oi_lab o)); TNum (oi_w o)].
Definition xp (l : list (tok Z)) : option (oinfo Z) :=
  match l with
  | [TInt s; TInt n; TInt a; TInt j; TNum w] => Some (OI (LL (if (s =? 0)%Z then SP else SN) a j) n w)
  | _ => None
  end.
Fixpoint xps (ls : list (list (tok Z))) : outcome (list (oinfo Z)) :=
  match ls with [] => Ok [] | l :: ls' => match xp l with Some o => r <- xps ls' ;; Ok (o :: r) | None => Exit end end.
Definition xE : oenv := {| oD := Z; oT := Z; o_fmt := fun z => z; o_scan := fun w => match w with TNum z => Some z | _ => None end;
  o_chop := fun z => if (Z.abs z <? 3)%Z then 0%Z else z; o_orb_lines := map xl; o_parse := xps; o_parse_old := fun _ => Exit;
  o_allowed := fun _ _ _ a b => llabel_eqb a b |}.
Definition xspace : wspace Z := mk_wspace [OI (LL SN 1 1) 0%Z 5%Z; OI (LL SP 0 1) 0%Z 1%Z; OI (LL SP 0 1) 1%Z 2%Z].
Definition xo : obme xE := Obme xE (Some "R"%char) 0%Z 0%Z 0%Z xspace xspace [(0, 0)%nat; (1, 1)%nat].
Definition xms : blocks Z := [Mat 2 2 (fun i j => Z.of_nat (10 * i + j + 2)); Mat 1 1 (fun _ _ => 7%Z)].
Example C34_ex : obme_ok xE xo /\ Forall2 (block_fits xE xo) (ob_sectors xE xo) xms /\ Forall (block_prints xE) xms
  /\ exists lines, write_file xE true xo xms = Ok lines
  /\ exists ms', read_file xE 0%Z lines true = Ok (xo, ms') /\ map (fun m => map (fun p => at_ m (fst p) (snd p)) (pairs (rows m) (cols m))) ms' = [[0; 3; 12; 13]; [7]]%Z.
Proof.
  split.
  { constructor; try reflexivity; try (eexists; reflexivity).
    - split; [reflexivity|]. split; [reflexivity|]. repeat constructor; discriminate.
    - split; [reflexivity|]. split; [reflexivity|]. repeat constructor; discriminate. }
  split; [repeat constructor|]. split; [repeat constructor; intros i j _ _; eexists; reflexivity|].
  eexists. split; [reflexivity|]. eexists. split; reflexivity.
Qed.

(** C58: a file that ends with a newline and lacks lines of the body is not accepted. *)
Theorem C58_missing_lines : forall E d verbose o h body, obme_ok E o -> write_header E verbose o = Ok h ->
  (text_lines body < total_rows E o (ob_sectors E o))%nat -> ~ is_ok (read_file E d (h ++ body) true).
Proof. exact missing_lines. Qed.
Print Assumptions C58_missing_lines.
Example C58_ex : obme_ok xE xo /\ total_rows xE xo (ob_sectors xE xo) = 3%nat /\ text_lines (T := Z) [[TNum 1%Z; TNum 2%Z]] = 1%nat.
Proof. split; [exact (proj1 C34_ex)|split; reflexivity]. Qed.
(** False without a final newline: the file is cut in the last sector after its first row, the row read last is taken for
    the missing one. *)
Definition yspace : wspace Z := mk_wspace [OI (LL SP 0 1) 0%Z 1%Z; OI (LL SP 0 1) 1%Z 2%Z].
Definition yo : obme xE := Obme xE (Some "R"%char) 0%Z 0%Z 0%Z yspace yspace [(0, 0)%nat].
Theorem C58_no_final_newline_refuted : exists E d verbose o h body,
  obme_ok E o /\ write_header E verbose o = Ok h /\ (text_lines body < total_rows E o (ob_sectors E o))%nat /\ is_ok (read_file E d (h ++ body) false).
Proof.
  exists xE, 0%Z, false, yo. eexists. exists [[TNum 8%Z; TNum 9%Z]]. split.
  { constructor; try reflexivity; try (eexists; reflexivity).
    - split; [reflexivity|]. split; [reflexivity|]. repeat constructor; discriminate.
    - split; [reflexivity|]. split; [reflexivity|]. repeat constructor; discriminate. }
  split; [reflexivity|]. split; [cbn; lia|]. eexists. reflexivity.
Qed.
Print Assumptions C58_no_final_newline_refuted.
(** what is read then *)
Example C58_repeated_row : exists h o ms, write_header xE false yo = Ok h /\ read_file xE 0%Z (h ++ [[TNum 8%Z; TNum 9%Z]]) false = Ok (o, ms)
  /\ map (fun m => map (fun p => at_ m (fst p) (snd p)) (pairs (rows m) (cols m))) ms = [[8; 9; 8; 9]]%Z.
Proof. eexists. eexists. eexists. split; [reflexivity|]. split; reflexivity. Qed.

(** C61 (false of the code): a file with an unknown version number, or with an unknown constraint mode in version 1, is not
    rejected: variables that were never set are used.  In version 0 the operator type is never set. *)
Theorem C61_unknown_version_refuted :
  (exists v : Z, ~ In v [0; 1; 2]%Z /\ forall E d rest, read_file E d ([TInt v] :: rest) true = UB)
  /\ (exists (mode : ascii), mode <> "R"%char /\ mode <> "S"%char /\ forall E d p c rest, in_i32 p = true ->
        read_file E d ([TInt 1] :: [TChr c; TInt p] :: [TChr mode] :: rest) true = UB)
  /\ (exists E d lines o ms, read_file E d lines true = Ok (o, ms) /\ ob_type E o = None).
Proof.
  split; [|split].
  - exists 3%Z. split; [cbn; intuition lia|]. intros. reflexivity.
  - exists "X"%char. split; [discriminate|]. split; [discriminate|]. intros E d p c rest Hp.
    unfold read_file, read_header, open_text, get_line. cbn [st_fail st_eof st_rest st_nl orb next_line is_nil]. rewrite !andb_false_r.
    cbn [scan_i in_i32 andb Z.leb Z.ltb Z.compare bind]. change (in_i32 1) with true. cbn [bind]. change (1 =? 0)%Z with false. change (1 =? 1)%Z with true.
    cbn [st_fail st_eof st_rest st_nl orb next_line is_nil]. rewrite ?andb_false_r. cbn [scan_c bind scan_i]. rewrite Hp. cbn [bind st_fail st_eof st_rest st_nl orb next_line is_nil].
    rewrite ?andb_false_r. reflexivity.
  - exists {| oD := Z; oT := Z; o_fmt := fun z => z; o_scan := fun _ => None; o_chop := fun z => z; o_orb_lines := fun _ => []; o_parse := fun _ => Exit;
      o_parse_old := fun _ => Ok []; o_allowed := fun _ _ _ _ _ => false |}, 0%Z, [[TInt 0]; [TChr "r"%char; TInt 0; TInt 0; TInt 0; TInt 0]].
    eexists. eexists. split; reflexivity.
Qed.
Print Assumptions C61_unknown_version_refuted.

(** C35: every element of a multi-file density is stored at the states that carry the labels of its info line, times
    sqrt(4 pi) and divided by Hat(j) of the bra; every other element is zero. *)
Theorem C35_multi : forall al sp J0_max g0 Tz0 info vs rest, space_ok sp -> (-1 <= J0_max)%Z -> NoDup info ->
  Forall (fun i => located al sp 0 J0_max g0 Tz0 (il_bra i) (il_ket i) (il_J0 i)) info -> length vs = length info ->
  exists d, read_multi al sp J0_max g0 Tz0 info (length info) (map Some vs ++ rest) = Ok d
  /\ de_min d = 0%Z /\ de_max d = J0_max
  /\ (forall t i v P p Q q, nth_error info t = Some i -> nth_error vs t = Some v -> carries sp (il_bra i) P p -> carries sp (il_ket i) Q q ->
        density_entry d (il_J0 i) P p Q q = v * k_sqrt_4pi / sqrt (IZR (fl_2j (il_bra i) + 1)))
  /\ (forall J0 P p Q q, (0 <= J0 <= J0_max)%Z -> (forall i, In i info -> ~ (il_J0 i = J0 /\ carries sp (il_bra i) P p /\ carries sp (il_ket i) Q q)) ->
        density_entry d J0 P p Q q = 0).
Proof. exact multi_complete. Qed.
Print Assumptions C35_multi.
(** the info lines of version 1500 carry the labels of the file; version 1405 gives those of the protons and then the same
    for the neutrons *)
Theorem C35_info : (forall lines t x ia na la ja ib nb lb jb J0 cls, nth_error lines t = Some (x, (ia, na, la, ja), (ib, nb, lb, jb), J0, cls) ->
    nth_error (info_1500 lines) t = Some (IL (FL (class_species cls) na la ja) (FL (class_species cls) nb lb jb) J0))
  /\ (forall lines t x na la ja nb lb jb J0, nth_error lines t = Some (x, (na, la, ja), (nb, lb, jb), J0) ->
    nth_error (info_1405 lines) t = Some (IL (FL (Some SP) na la ja) (FL (Some SP) nb lb jb) J0)
    /\ nth_error (info_1405 lines) (length lines + t) = Some (IL (FL (Some SN) na la ja) (FL (Some SN) nb lb jb) J0)).
Proof.
  split.
  - intros lines t x ia na la ja ib nb lb jb J0 cls H. unfold info_1500. rewrite nth_error_map, H. reflexivity.
  - intros lines t x na la ja nb lb jb J0 H. assert (Ht : (t < length lines)%nat) by (apply nth_error_Some; congruence). unfold info_1405. split.
    + rewrite nth_error_app1 by (rewrite map_length; exact Ht). rewrite nth_error_map, H. reflexivity.
    + rewrite nth_error_app2 by (rewrite map_length; lia). rewrite map_length, Nat.add_comm, Nat.add_sub. rewrite !nth_error_map, H. reflexivity.
Qed.
Print Assumptions C35_info.
Definition zal (J0 g0 Tz0 : Z) (a b : llabel) : bool := llabel_eqb a b.
Definition zsp : lspace := [(LL SP 0 1, [0; 1]%Z); (LL SN 0 1, [0]%Z)].
Definition z0 : flab := FL (Some SP) 0 0 1.
Definition z1 : flab := FL (Some SP) 1 0 1.
Definition zinfo : list info_line := [IL z1 z0 0; IL z0 z0 0].
Lemma zcar0 : carries zsp z0 0 0.
Proof. exists SP, (LL SP 0 1, [0; 1]%Z). repeat split. Qed.
Lemma zcar1 : carries zsp z1 0 1.
Proof. exists SP, (LL SP 0 1, [0; 1]%Z). repeat split. Qed.
Lemma zspace_ok : space_ok zsp.
Proof. split; [repeat constructor; cbn; intuition congruence|]. repeat constructor; cbn; intuition congruence. Qed.
Lemma zlocated : Forall (fun i => located zal zsp 0 0 0 0 (il_bra i) (il_ket i) (il_J0 i)) zinfo.
Proof.
  repeat constructor; cbn; try lia.
  - exists 0%nat, 1%nat, 0%nat, 0%nat. split; [exact zcar1|]. split; [exact zcar0|]. cbn. auto.
  - exists 0%nat, 0%nat, 0%nat, 0%nat. split; [exact zcar0|]. split; [exact zcar0|]. cbn. auto.
Qed.
Example C35_ex : space_ok zsp /\ NoDup zinfo /\ Forall (fun i => located zal zsp 0 0 0 0 (il_bra i) (il_ket i) (il_J0 i)) zinfo
  /\ exists d, read_multi zal zsp 0 0 0 zinfo 2 [Some 5; Some 6] = Ok d
  /\ density_entry d 0 0 1 0 0 = 5 * k_sqrt_4pi / hat 1 /\ density_entry d 0 0 0 0 0 = 6 * k_sqrt_4pi / hat 1 /\ density_entry d 0 0 0 0 1 = 0.
Proof.
  split; [exact zspace_ok|].
  split; [unfold zinfo, z0, z1; constructor; [cbn; intuition congruence|constructor; [cbn; tauto|constructor]]|]. split; [exact zlocated|].
  eexists. split; [reflexivity|]. split; [reflexivity|]. split; reflexivity.
Qed.

(** C36 (false of the code): the data file announces as many elements as there are info lines and holds fewer, and is
    accepted; the missing element is the one before it multiplied by sqrt(4 pi) and divided by Hat(j) once more. *)
Theorem C36_truncated_multi_refuted : exists al sp J0_max g0 Tz0 info vs d,
  (length vs < length info)%nat /\ read_multi al sp J0_max g0 Tz0 info (length info) (map Some vs) = Ok d
  /\ density_entry d 0 0 1 0 0 = 5 * k_sqrt_4pi / hat 1 /\ density_entry d 0 0 0 0 0 = 5 * k_sqrt_4pi / hat 1 * k_sqrt_4pi / hat 1.
Proof.
  exists zal, zsp, 0%Z, 0%Z, 0%Z, zinfo, [5]. eexists. split; [cbn; lia|]. split; [reflexivity|]. split; reflexivity.
Qed.
Print Assumptions C36_truncated_multi_refuted.
(** it is so for every data file: whatever is left of it, reading succeeds *)
Theorem C36_always_accepted : forall al sp J0_max g0 Tz0 info ws, space_ok sp -> (-1 <= J0_max)%Z ->
  Forall (fun i => located al sp 0 J0_max g0 Tz0 (il_bra i) (il_ket i) (il_J0 i)) info ->
  is_ok (read_multi al sp J0_max g0 Tz0 info (length info) ws).
Proof. exact multi_any_data. Qed.
Print Assumptions C36_always_accepted.
(** nor is the number of elements announced in a single file compared with their number *)
Theorem C36_truncated_single_refuted : exists al sp J0_min J0_max g0 Tz0 orbs announced ls,
  (length ls < announced)%nat /\ is_ok (read_single al sp J0_min J0_max g0 Tz0 orbs announced true ls).
Proof. exists zal, zsp, 0%Z, 0%Z, 0%Z, 0%Z, [z0; z1], 2%nat, [DL 1 1 0 5]. split; [cbn; lia|]. eexists. reflexivity. Qed.
Print Assumptions C36_truncated_single_refuted.

(** C59: the elements of a single-file density that ends with a newline are stored at the states of their orbitals, and
    nothing else is stored. *)
Theorem C59_single : forall al sp J0_min J0_max g0 Tz0 orbs announced ls, space_ok sp -> (J0_min <= J0_max + 1)%Z -> NoDup orbs ->
  NoDup (map (fun l => (dl_a l, dl_b l, dl_J0 l)) ls) -> Forall (line_located al sp J0_min J0_max g0 Tz0 orbs) ls ->
  exists d, read_single al sp J0_min J0_max g0 Tz0 orbs announced true ls = Ok d
  /\ de_min d = J0_min /\ de_max d = J0_max
  /\ (forall l a b P p Q q, In l ls -> nth_error orbs (Z.to_nat (dl_a l - 1)) = Some a -> nth_error orbs (Z.to_nat (dl_b l - 1)) = Some b ->
        carries sp a P p -> carries sp b Q q -> density_entry d (dl_J0 l) P p Q q = dl_v l / sqrt (IZR (fl_2j a + 1)))
  /\ (forall J0 P p Q q, (J0_min <= J0 <= J0_max)%Z ->
        (forall l a b, In l ls -> nth_error orbs (Z.to_nat (dl_a l - 1)) = Some a -> nth_error orbs (Z.to_nat (dl_b l - 1)) = Some b ->
           ~ (dl_J0 l = J0 /\ carries sp a P p /\ carries sp b Q q)) -> density_entry d J0 P p Q q = 0).
Proof. exact single_complete. Qed.
Print Assumptions C59_single.
Example C59_ex : Forall (line_located zal zsp 0 0 0 0 [z0; z1]) [DL 1 2 0 5; DL 2 2 0 6]
  /\ exists d, read_single zal zsp 0 0 0 0 [z0; z1] 2 true [DL 1 2 0 5; DL 2 2 0 6] = Ok d
  /\ density_entry d 0 0 0 0 1 = 5 / hat 1 /\ density_entry d 0 0 1 0 1 = 6 / hat 1.
Proof.
  split.
  - repeat constructor; cbn; try lia.
    + exists z0, z1. repeat split; cbn; try lia. exists 0%nat, 0%nat, 0%nat, 1%nat. split; [exact zcar0|]. split; [exact zcar1|]. cbn. auto.
    + exists z1, z1. repeat split; cbn; try lia. exists 0%nat, 1%nat, 0%nat, 1%nat. split; [exact zcar1|]. split; [exact zcar1|]. cbn. auto.
  - eexists. split; [reflexivity|]. split; reflexivity.
Qed.
(** False without a final newline: the last line is read and dropped. *)
Theorem C59_no_final_newline_refuted : exists al sp J0_min J0_max g0 Tz0 orbs ls d,
  Forall (line_located al sp J0_min J0_max g0 Tz0 orbs) ls /\ read_single al sp J0_min J0_max g0 Tz0 orbs (length ls) false ls = Ok d
  /\ exists l a b P p Q q, In l ls /\ nth_error orbs (Z.to_nat (dl_a l - 1)) = Some a /\ nth_error orbs (Z.to_nat (dl_b l - 1)) = Some b
  /\ carries sp a P p /\ carries sp b Q q /\ dl_v l = 6 /\ density_entry d (dl_J0 l) P p Q q = 0.
Proof.
  exists zal, zsp, 0%Z, 0%Z, 0%Z, 0%Z, [z0; z1], [DL 1 2 0 5; DL 2 2 0 6]. eexists. split; [exact (proj1 C59_ex)|]. split; [reflexivity|].
  exists (DL 2 2 0 6), z1, z1, 0%nat, 1%nat, 0%nat, 1%nat. split; [cbn; auto|]. split; [reflexivity|]. split; [reflexivity|].
  split; [exact zcar1|]. split; [exact zcar1|]. split; reflexivity.
Qed.
Print Assumptions C59_no_final_newline_refuted.
Theorem C59_last_line_unused : forall al sp J0_min J0_max g0 Tz0 orbs announced ls l,
  read_single al sp J0_min J0_max g0 Tz0 orbs announced false (ls ++ [l]) = read_single al sp J0_min J0_max g0 Tz0 orbs announced true ls.
Proof. exact single_last_dropped. Qed.
Print Assumptions C59_last_line_unused.

(** C37: the observable of an operator and a density on a common space is the sum over all pairs of orbitals of
    (2j+1) O rho / sqrt(2 J0 + 1); it is not-a-number exactly when parity, isospin projection, triangle or 3j coefficient
    forbid it or the density does not hold the multipole. *)
Theorem C37_observable : forall w3j al sp op od, Z.even (od_2Mb od - od_2Mk od) = true ->
  op_sectors op = mk_lsectors al sp sp (op_J0 op) (op_g0 op) (op_Tz0 op) -> op_ok sp sp (op_sectors op) (op_blocks op) ->
  density_ok al sp (od_g0 od) (od_Tz0 od) (od_dens od) ->
  (observable_defined w3j op od ->
    observable w3j sp op od = Ok (Num (ssum sp (fun P p => ssum sp (fun Q q =>
      match nth_error sp P with Some x => IZR (ll_2j (fst x) + 1) | None => 0 end
      * entry (op_sectors op) (op_blocks op) P p Q q * density_entry (od_dens od) (op_J0 op) P p Q q)) / sqrt (IZR (2 * op_J0 op + 1)))))
  /\ (~ observable_defined w3j op od -> observable w3j sp op od = Ok NaN).
Proof. exact observable_ok. Qed.
Print Assumptions C37_observable.
Definition wsp : lspace := [(LL SP 0 1, [0; 1]%Z)].
Definition wop : ob_operator := ObOp 0 0 0 [(0, 0)%nat] [Mat 2 2 (fun i j => if Nat.eqb i 0 && Nat.eqb j 0 then 1 else 0)].
Definition wod : ob_density := ObDe 0 0 0 0 0 0 (Dens 0 0 [[(0, 0)%nat]] [[Mat 2 2 (fun i j => if Nat.eqb i 0 && Nat.eqb j 0 then 1 else 0)]]).
Lemma wdefined : observable_defined (fun _ _ _ _ _ _ => 1) wop wod.
Proof. repeat split; cbn; try lia. rewrite Rabs_R1. lra. Qed.
Example C37_ex : op_ok wsp wsp (op_sectors wop) (op_blocks wop) /\ density_ok zal wsp 0 0 (od_dens wod)
  /\ observable_defined (fun _ _ _ _ _ _ => 1) wop wod /\ observable (fun _ _ _ _ _ _ => 1) wsp wop wod = Ok (Num 2).
Proof.
  assert (Ho : op_ok wsp wsp (op_sectors wop) (op_blocks wop)) by (split; [repeat constructor; cbn; tauto|repeat constructor]).
  assert (Hd : density_ok zal wsp 0 0 (od_dens wod)).
  { split; [reflexivity|]. constructor; [|constructor]. split; [repeat constructor; cbn; tauto|repeat constructor]. }
  split; [exact Ho|]. split; [exact Hd|]. split; [exact wdefined|].
  rewrite (proj1 (C37_observable (fun _ _ _ _ _ _ => 1) zal wsp wop wod eq_refl eq_refl Ho Hd) wdefined). f_equal. f_equal.
  unfold ssum, rsum. cbn. rewrite sqrt_1. field.
Qed.

(** C60 (false of the code): an operator on another space than that of the densities is not refused; its elements are then
    paired by position.  Here the states of the two spaces are listed in opposite order. *)
Definition vsp : lspace := [(LL SP 0 1, [1; 0]%Z)].
Theorem C60_other_space_refuted : exists w3j al sp sp' op od v, sp' <> sp
  /\ op_sectors op = mk_lsectors al sp' sp' (op_J0 op) (op_g0 op) (op_Tz0 op) /\ op_ok sp' sp' (op_sectors op) (op_blocks op)
  /\ density_ok al sp (od_g0 od) (od_Tz0 od) (od_dens od)
  /\ (forall P p Q q, state sp' P p -> state sp' Q q -> entry (op_sectors op) (op_blocks op) P p Q q <> 0 -> n_of sp' P p 1)
  /\ (forall P p Q q, n_of sp P p 1 -> density_entry (od_dens od) (op_J0 op) P p Q q = 0)
  /\ observable w3j sp op od = Ok (Num v) /\ v <> 0.
Proof.
  exists (fun _ _ _ _ _ _ => 1), zal, wsp, vsp, wop, wod, 2. split; [discriminate|]. split; [reflexivity|].
  split; [split; [repeat constructor; cbn; tauto|repeat constructor]|]. split; [exact (proj1 (proj2 C37_ex))|]. split.
  { intros P p Q q [HP Hp] [HQ Hq] Hne. cbn in HP, HQ. assert (P = 0%nat) by lia. assert (Q = 0%nat) by lia. subst. cbn in Hp, Hq. cbn in Hne.
    destruct p as [|p]; [exists (LL SP 0 1, [1; 0]%Z); auto|]. cbn in Hne. congruence. }
  split.
  { intros P p Q q (x & Hx & Hn). destruct P as [|P]; [|destruct P; discriminate]. injection Hx as <-. cbn in Hn.
    destruct p as [|[|p]]; [discriminate| |destruct p; discriminate]. unfold density_entry. cbn. destruct Q; reflexivity. }
  split; [|lra]. exact (proj2 (proj2 (proj2 C37_ex))).
Qed.
Print Assumptions C60_other_space_refuted.

(** C77: an element that is not between states of the space, of a multipole outside the range, or of a class other than protons
    (1) and neutrons (2) fails an assertion; an orbital number outside the list ends the program. *)
Theorem C77_multi : forall al sp J0_max g0 Tz0 pre i post ws, space_ok sp -> (-1 <= J0_max)%Z ->
  Forall (fun i => located al sp 0 J0_max g0 Tz0 (il_bra i) (il_ket i) (il_J0 i)) pre -> ~ located al sp 0 J0_max g0 Tz0 (il_bra i) (il_ket i) (il_J0 i) ->
  read_multi al sp J0_max g0 Tz0 (pre ++ i :: post) (length (pre ++ i :: post)) ws = AssertFail.
Proof. exact multi_unlocated. Qed.
Print Assumptions C77_multi.
Theorem C77_class : forall al sp a b g0 Tz0 lines t x ia na la ja ib nb lb jb J0 cls, nth_error lines t = Some (x, (ia, na, la, ja), (ib, nb, lb, jb), J0, cls) ->
  cls <> 1%Z -> cls <> 2%Z -> exists i, nth_error (info_1500 lines) t = Some i /\ ~ located al sp a b g0 Tz0 (il_bra i) (il_ket i) (il_J0 i).
Proof. exact class_unlocated. Qed.
Print Assumptions C77_class.
Theorem C77_single : forall al sp J0_min J0_max g0 Tz0 orbs announced pre l post a b, space_ok sp -> (J0_min <= J0_max + 1)%Z ->
  Forall (line_located al sp J0_min J0_max g0 Tz0 orbs) pre -> line_labels orbs l a b -> ~ located al sp J0_min J0_max g0 Tz0 a b (dl_J0 l) ->
  read_single al sp J0_min J0_max g0 Tz0 orbs announced true (pre ++ l :: post) = AssertFail.
Proof. exact single_unlocated. Qed.
Print Assumptions C77_single.
Theorem C77_index : forall al sp J0_min J0_max g0 Tz0 orbs announced pre l post, space_ok sp -> (J0_min <= J0_max + 1)%Z ->
  Forall (line_located al sp J0_min J0_max g0 Tz0 orbs) pre -> ~ (1 <= dl_a l <= Z.of_nat (length orbs))%Z \/ ~ (1 <= dl_b l <= Z.of_nat (length orbs))%Z ->
  read_single al sp J0_min J0_max g0 Tz0 orbs announced true (pre ++ l :: post) = Exit.
Proof. exact single_bad_index. Qed.
Print Assumptions C77_index.
(** an orbital with n = 2 which the space does not have, after an element that is there *)
Example C77_ex : Forall (fun i => located zal zsp 0 0 0 0 (il_bra i) (il_ket i) (il_J0 i)) [IL z1 z0 0]
  /\ ~ located zal zsp 0 0 0 0 (FL (Some SP) 2 0 1) z0 0
  /\ read_multi zal zsp 0 0 0 [IL z1 z0 0; IL (FL (Some SP) 2 0 1) z0 0] 2 [Some 5; Some 6] = AssertFail
  /\ read_multi zal zsp 0 0 0 (info_1500 [(1, (1, 1, 0, 1), (1, 0, 0, 1), 0, 1); (2, (1, 1, 0, 1), (1, 0, 0, 1), 0, 3)]%Z) 2 [Some 5; Some 6] = AssertFail
  /\ read_single zal zsp 0 0 0 0 [z0; FL (Some SP) 2 0 1] 2 true [DL 1 1 0 5; DL 1 2 0 6] = AssertFail
  /\ read_single zal zsp 0 0 0 0 [z0; z1] 2 true [DL 1 1 0 5; DL 1 3 0 6] = Exit.
Proof.
  split; [pose proof zlocated as Z; inversion Z; constructor; [assumption|constructor]|]. split; [|repeat split].
  intros (_ & P & p & Q & q & (s & x & Es & Ex & El & En) & _). cbn in Es, El, En. injection Es as <-.
  destruct P as [|[|P]]; cbn in Ex; [injection Ex as <-|injection Ex as <-|destruct P; discriminate].
  - destruct p as [|[|[|p]]]; discriminate.
  - discriminate.
Qed.

(** C61.  What is read of a file of version 0 (a radial operator without type; it must not change l) ... *)
Theorem C61_version_0 : forall E, forall c l0max Tz0 bls kls rest bra ket, in_i32 l0max = true -> in_i32 Tz0 = true ->
  (Z.of_nat (length bls) < two31)%Z -> (Z.of_nat (length kls) < two31)%Z -> Forall (fun l => l <> []) bls -> Forall (fun l => l <> []) kls ->
  o_parse_old E (numbered E bls) = Ok bra -> o_parse_old E (numbered E kls) = Ok ket ->
  let file := header_0 E c l0max Tz0 (Z.of_nat (length bls)) (Z.of_nat (length kls)) ++ bls ++ kls ++ rest in
  (l0max = 0%Z -> read_header E (open_text file true) = Ok (old_operator E None 0 0 Tz0 bra ket, open_text rest true))
  /\ (l0max <> 0%Z -> read_header E (open_text file true) = AssertFail).
Proof. exact header_0_read. Qed.
Print Assumptions C61_version_0.

(** C61.  ... and of version 1, with the labels of the operator (mode S) or without (mode R). *)
Theorem C61_version_1 : forall E, forall c p mode J0 g0 Tz0 bls kls rest bra ket, in_i32 p = true -> in_i32 J0 = true -> in_i32 g0 = true -> in_i32 Tz0 = true ->
  (mode = [TChr "S"%char; TInt J0; TInt g0; TInt Tz0] \/ (mode = [TChr "R"%char; TInt 0; TInt Tz0] /\ J0 = 0%Z /\ g0 = 0%Z)) ->
  (Z.of_nat (length bls) < two31)%Z -> (Z.of_nat (length kls) < two31)%Z -> Forall (fun l => l <> []) bls -> Forall (fun l => l <> []) kls ->
  o_parse_old E (numbered E bls) = Ok bra -> o_parse_old E (numbered E kls) = Ok ket ->
  read_header E (open_text (header_1 E c p mode (Z.of_nat (length bls)) (Z.of_nat (length kls)) ++ bls ++ kls ++ rest) true)
  = Ok (old_operator E (Some "R"%char) J0 g0 Tz0 bra ket, open_text rest true).
Proof. exact header_1_read. Qed.
Print Assumptions C61_version_1.

Example C61_old_ex : read_file oldE 0%Z [[TInt 1]; [TChr "r"%char; TInt 2]; [TChr "S"%char; TInt 2; TInt 0; TInt 0]; [TInt 1; TInt 1]; [TInt 7]; [TInt 8]] true
  = Ok (Obme oldE (Some "R"%char) 2 0 0 [(LL SP 0 1, [(0, 0)])] [(LL SP 0 1, [(0, 0)])] [], [])%Z.
Proof. exact old_case. Qed.

(** C35.  The constant in the code is the square root of 4 pi. *)
Theorem C35_constant : Rabs (k_sqrt_4pi * k_sqrt_4pi - 4 * PI) < 1 / 10 ^ 9 /\ 0 < k_sqrt_4pi.
Proof. exact constant_value. Qed.
Print Assumptions C35_constant.

(** C36.  What is read of a multi-file density with a word that is not a number: zeros from there on. *)
Theorem C36_bad_word : forall al sp J0_max g0 Tz0 info vs rest, (length vs < length info)%nat ->
  read_multi al sp J0_max g0 Tz0 info (length info) (map Some vs ++ None :: rest)
  = read_multi al sp J0_max g0 Tz0 info (length info) (map Some (vs ++ repeat 0 (length info - length vs))).
Proof. exact bad_word. Qed.
Print Assumptions C36_bad_word.

(** C36.  What is read of one that ends too early: each missing value is the element stored before it. *)
Theorem C36_missing : forall al sp J0_max g0 Tz0 pre i post vs v, length vs = length pre ->
  read_multi al sp J0_max g0 Tz0 (pre ++ i :: post) (length (pre ++ i :: post)) (map Some (vs ++ [v]))
  = read_multi al sp J0_max g0 Tz0 (pre ++ i :: post) (length (pre ++ i :: post))
      (map Some (vs ++ v :: continued (v * k_sqrt_4pi / sqrt (IZR (fl_2j (il_bra i) + 1))) post)).
Proof. exact missing_words. Qed.
Print Assumptions C36_missing.

Example C36_bad_ex : read_multi (fun _ _ _ a b => llabel_eqb a b) [(LL SP 0 1, [0; 1]%Z)] 0 0 0
    [IL (FL (Some SP) 0 0 1) (FL (Some SP) 0 0 1) 0; IL (FL (Some SP) 0 0 1) (FL (Some SP) 1 0 1) 0; IL (FL (Some SP) 1 0 1) (FL (Some SP) 1 0 1) 0] 3 [Some 5; None]
  = read_multi (fun _ _ _ a b => llabel_eqb a b) [(LL SP 0 1, [0; 1]%Z)] 0 0 0
    [IL (FL (Some SP) 0 0 1) (FL (Some SP) 0 0 1) 0; IL (FL (Some SP) 0 0 1) (FL (Some SP) 1 0 1) 0; IL (FL (Some SP) 1 0 1) (FL (Some SP) 1 0 1) 0] 3 [Some 5; Some 0; Some 0].
Proof. exact bad_case. Qed.

(** C59.  The labels of an orbital of the list are carried by the state with its species, l, j and n. *)
Theorem C59_orbitals : forall W (o : oinfo W) sp P p, carries sp (full_labels o) P p
  <-> exists x, nth_error sp P = Some x /\ fst x = oi_lab o /\ nth_error (snd x) p = Some (oi_n o).
Proof. exact orbital_carried. Qed.
Print Assumptions C59_orbitals.
