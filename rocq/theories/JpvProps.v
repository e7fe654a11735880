(** C42, C63, C64: relative interaction files. *)
From Coq Require Import List ZArith Reals Bool Lia Lra Ascii.
From Verif Require Import Base RMat OscModel BlockModel ObioModel JpvModel JpvSpec JpvProof JpvMore.
Import ListNotations.
Open Scope Z_scope.

(** C42: after a file of blocks, in any division into lines and ended by a terminating line, every element of every sector is
    the number of the last block that gives it, and as before if none does; a block gives each of its numbers to one place. *)
Theorem C42_file : forall bs texts sp Jmax sectors ms stop tail nl depth, rspace_ok sp -> NoDup sectors -> rblocks_ok sp sectors ms ->
  Forall2 (fun p t => block_text (fst p) t /\ belongs sp Jmax sectors (fst p) (snd p)) bs texts -> (length bs < depth)%nat ->
  exists ms', read_jpv depth sp Jmax sectors (concat texts ++ (TInt 99999 :: stop) :: tail) nl ms = Some (Ok ms') /\ rblocks_ok sp sectors ms'
  /\ forall s x y, in_sector sp sectors s x y -> entry_of ms' s x y = latest bs s x y (entry_of ms s x y).
Proof. exact jpv_file. Qed.
Print Assumptions C42_file.
Theorem C42_places : forall d n, (n < tri 0 d)%nat -> exists i j, triangle_place d n i j /\ forall i' j', triangle_place d n i' j' -> i' = i /\ j' = j.
Proof. exact place_unique. Qed.
Print Assumptions C42_places.
(** a file written from the matrix elements of a symmetric interaction: every element given by some block is that of the
    interaction, bra first, whichever order the header has; the two blocks of an off-diagonal sector give all its elements *)
Theorem C42_interaction : forall V bs texts sp Jmax sectors ms stop tail nl depth, rspace_ok sp -> NoDup sectors -> rblocks_ok sp sectors ms -> symmetric_V V ->
  Forall2 (fun p t => block_text (fst p) t /\ belongs sp Jmax sectors (fst p) (snd p)) bs texts -> (length bs < depth)%nat ->
  Forall (fun p => written_from (V (jb_J (fst p)) (jb_S (fst p))) (fst p)) bs ->
  exists ms', read_jpv depth sp Jmax sectors (concat texts ++ (TInt 99999 :: stop) :: tail) nl ms = Some (Ok ms')
  /\ forall s x y b k xb xk, in_sector sp sectors s x y -> nth_error sectors s = Some (b, k) -> nth_error sp b = Some xb -> nth_error sp k = Some xk ->
     (exists p, In p bs /\ snd p = s /\ gives (fst p) x y <> None) -> entry_of ms' s x y = V (r_J xb) (r_S xb) (r_L xb) x (r_L xk) y.
Proof. exact jpv_interaction. Qed.
Print Assumptions C42_interaction.
Theorem C42_both_orders : forall b1 b2 d x y, jb_first b2 < jb_second b2 -> jb_second b1 < jb_first b1 -> jb_dim b1 = d -> jb_dim b2 = d ->
  length (jb_vals b1) = tri 0 d -> length (jb_vals b2) = tri 0 d -> (x < d)%nat -> (y < d)%nat -> gives b1 x y <> None \/ gives b2 x y <> None.
Proof. exact both_cover. Qed.
Print Assumptions C42_both_orders.

(** a space of 3S1 and 3D1, two radial states each, and its three sectors *)
Definition deuteron : rspace := [RSub 0 1 1 0 0 2; RSub 2 1 1 0 0 2].
Definition dsectors : lsectors := [(0, 0); (0, 1); (1, 1)]%nat.
Definition dzero : blocks R := [mzero 0%R 2 2; mzero 0%R 2 2; mzero 0%R 2 2].
Definition blk_sd : jblock := JB 1 1 2 0 2 [10; 20; 30]%R.
Definition blk_ds : jblock := JB 1 1 0 2 2 [10; 40; 30]%R.
Definition text_sd : list line := [[TInt 1; TInt 1; TInt 2; TInt 0; TInt 4; TInt 2; TNum 1%R; TInt 20; TInt 0]; [TNum 10%R]; []; [TNum 20%R; TNum 30%R]].
Definition text_ds : list line := [[TInt 1; TInt 1; TInt 0; TInt 2; TInt 4; TInt 2; TNum 1%R; TInt 20; TInt 0]; [TNum 10%R; TNum 40%R]; [TNum 30%R]].
Example C42_ex : rspace_ok deuteron /\ NoDup dsectors /\ rblocks_ok deuteron dsectors dzero
  /\ Forall2 (fun p t => block_text (fst p) t /\ belongs deuteron 1 dsectors (fst p) (snd p)) [(blk_sd, 1%nat); (blk_ds, 1%nat)] [text_sd; text_ds]
  /\ latest [(blk_sd, 1%nat); (blk_ds, 1%nat)] 1 0 1 0%R = 20%R /\ latest [(blk_sd, 1%nat); (blk_ds, 1%nat)] 1 1 0 0%R = 40%R.
Proof.
  split. { unfold rspace_ok. cbn. constructor; [intros [E|[]]; discriminate|constructor; [intros []|constructor]]. }
  split. { unfold dsectors. constructor; [intros [E|[E|[]]]; discriminate|constructor; [intros [E|[]]; discriminate|constructor; [intros []|constructor]]]. }
  split. { repeat constructor. }
  split; [|split; reflexivity].
  assert (B : forall b, b = blk_sd \/ b = blk_ds -> belongs deuteron 1 dsectors b 1).
  { intros b [-> | ->]; (split; [cbn; lia|]; split; [cbn; lia|]; split; [cbn; lia|]; split; [reflexivity|]; split; [cbn; lia|]; exists 0%nat, 1%nat, (RSub 0 1 1 0 0 2), (RSub 2 1 1 0 0 2); repeat split; lia). }
  constructor; [split; [|apply B; left; reflexivity]|constructor; [split; [|apply B; right; reflexivity]|constructor]];
    (exists 4, 0, (TNum 1%R), (TInt 20); eexists; exists 1%R, 20%R; split; [reflexivity|]; split; [reflexivity|]; split; [discriminate|]; split; [reflexivity|]; split; [reflexivity|];
     split; [repeat constructor|]; split; [reflexivity|right; discriminate]).
Qed.
Example C42_ex2 : symmetric_V (fun _ _ L i L' j => IZR (L * L' + Z.of_nat i * Z.of_nat j)) /\ exists v, written_from (fun L i L' j => IZR (L * L' + Z.of_nat i * Z.of_nat j)) (JB 1 1 0 2 2 v).
Proof.
  split. { intros J S L i L' j. f_equal. ring. }
  exists [0; 0; 1]%R. intros i j Hij Hj. cbn in Hj. destruct j as [|[|j]]; [| |lia]; (destruct i as [|[|i]]; try lia; reflexivity).
Qed.

(** C63 (false of the code): reading an interaction file ends.  If the last line, without a newline, is the header of an empty
    block, that header is parsed again and again.  With a final newline reading always ends. *)
Theorem C63_ends_refuted : exists sp Jmax sectors lines ms, rspace_ok sp /\ NoDup sectors /\ rblocks_ok sp sectors ms
  /\ forall depth, read_jpv depth sp Jmax sectors lines false ms = None.
Proof. exact jpv_endless. Qed.
Print Assumptions C63_ends_refuted.
Theorem C63_ends : forall sp Jmax sectors lines ms, read_jpv (S (length lines)) sp Jmax sectors lines true ms <> None.
Proof. exact jpv_ends. Qed.
Print Assumptions C63_ends.
Theorem C63_ends_terminated : forall bs texts sp Jmax sectors ms stop tail nl, rspace_ok sp -> NoDup sectors -> rblocks_ok sp sectors ms ->
  Forall2 (fun p t => block_text (fst p) t /\ belongs sp Jmax sectors (fst p) (snd p)) bs texts ->
  read_jpv (S (length bs)) sp Jmax sectors (concat texts ++ (TInt 99999 :: stop) :: tail) nl ms <> None.
Proof. exact jpv_ends_terminated. Qed.
Print Assumptions C63_ends_terminated.

(** C64 (false of the code): something that is not a number among the elements of a block is reported.  The rest of its line
    is passed over and the elements after it move up. *)
Theorem C64_reported_refuted : exists sp Jmax sectors ms pre word post more, rspace_ok sp /\ NoDup sectors /\ rblocks_ok sp sectors ms
  /\ word_value word = None
  /\ exists ms', read_jpv 3 sp Jmax sectors (pre ++ [[TNum 10%R; word; TNum 20%R]] ++ more ++ post) true ms = Some (Ok ms')
  /\ entry_of ms' 1 0 1 = 30%R /\ more = [[TNum 30%R; TNum 40%R]].
Proof. exact jpv_silent. Qed.
Print Assumptions C64_reported_refuted.

(** C76: a block which does not belong to the space, after any number of blocks which do: J above the maximum or orbital angular
    momenta of different parity fail an assertion, an absent subspace ends the program. *)
Theorem C76_high_J : forall bs texts sp Jmax sectors ms b text tail nl depth, rspace_ok sp -> NoDup sectors -> rblocks_ok sp sectors ms ->
  Forall2 (fun p t => block_text (fst p) t /\ belongs sp Jmax sectors (fst p) (snd p)) bs texts -> block_text b text -> Jmax < jb_J b ->
  (length bs < depth)%nat -> read_jpv depth sp Jmax sectors (concat texts ++ text ++ tail) nl ms = Some AssertFail.
Proof. exact refused_J. Qed.
Print Assumptions C76_high_J.
Theorem C76_parity : forall bs texts sp Jmax sectors ms b text tail nl depth, rspace_ok sp -> NoDup sectors -> rblocks_ok sp sectors ms ->
  Forall2 (fun p t => block_text (fst p) t /\ belongs sp Jmax sectors (fst p) (snd p)) bs texts -> block_text b text ->
  0 <= jb_S b /\ 0 <= jb_first b /\ 0 <= jb_second b /\ (jb_first b + jb_second b) mod 2 = 1 ->
  (length bs < depth)%nat -> read_jpv depth sp Jmax sectors (concat texts ++ text ++ tail) nl ms = Some AssertFail.
Proof. exact refused_parity. Qed.
Print Assumptions C76_parity.
Theorem C76_no_subspace : forall bs texts sp Jmax sectors ms b text tail nl depth, rspace_ok sp -> NoDup sectors -> rblocks_ok sp sectors ms ->
  Forall2 (fun p t => block_text (fst p) t /\ belongs sp Jmax sectors (fst p) (snd p)) bs texts -> block_text b text ->
  jb_J b <= Jmax /\ 0 <= jb_S b /\ 0 <= jb_first b /\ 0 <= jb_second b /\ (jb_first b + jb_second b) mod 2 = 0
  /\ (exists L, (L = jb_first b \/ L = jb_second b) /\ forall x, In x sp -> ~ sub_for (jb_S b) (jb_J b) L x) ->
  (length bs < depth)%nat -> read_jpv depth sp Jmax sectors (concat texts ++ text ++ tail) nl ms = Some Exit.
Proof. exact refused_space. Qed.
Print Assumptions C76_no_subspace.
Example C76_ex : block_text (JB 2 1 1 1 1 [3%R]) [[TInt 2; TInt 1; TInt 1; TInt 1; TInt 0; TInt 1; TNum 938%R; TNum 20%R; TInt 0]; [TNum 3%R]]
  /\ read_jpv 3 deuteron 1 dsectors [[TInt 2; TInt 1; TInt 1; TInt 1; TInt 0; TInt 1; TNum 938%R; TNum 20%R; TInt 0]; [TNum 3%R]; [TInt 99999]] true dzero = Some AssertFail
  /\ read_jpv 3 deuteron 1 dsectors [[TInt 1; TInt 1; TInt 0; TInt 1; TInt 0; TInt 1; TNum 938%R; TNum 20%R; TInt 0]; [TNum 3%R]; [TInt 99999]] true dzero = Some AssertFail
  /\ read_jpv 3 deuteron 1 dsectors [[TInt 1; TInt 0; TInt 1; TInt 1; TInt 0; TInt 1; TNum 938%R; TNum 20%R; TInt 0]; [TNum 3%R]; [TInt 99999]] true dzero = Some Exit.
Proof.
  split; [|repeat split].
  exists 0, 0, (TNum 938%R), (TNum 20%R), [[TNum 3%R]], 938%R, 20%R. repeat split; try (right; discriminate); try discriminate; try lia; repeat constructor.
Qed.
