(** C46. *)
From Coq Require Import String List ZArith Bool Permutation.
From Verif Require Import Base H2Model H2Spec MapModel ConvModel ConvSpec ConvProof ConvFinal ExEnv ExH2.
Import ListNotations.
Open Scope string_scope.
Open Scope list_scope.
Open Scope nat_scope.

(** C46: conversion to a binary file of a space and operator that the output format can describe ([scheme], [record_fits]) *)
Theorem C46_to_binary_partial : forall (E : env) name out_name data file st ms code f,
  forall (whole_input : holds E name data file st ms)
    (input_library : library_indexing E (any_ix E st)) (output_library : library_indexing E (conv_indexing E (any_ix E st) f))
    (same_sectors : reordered E (any_ix E st) (conv_indexing E (any_ix E st) f))
    (known_format : format_of_code code = Ok f) (Henv : env_ok E) (binary_output : deduced_io_mode out_name = Ok KBinary)
    (output_ok : indexing_ok E (conv_indexing E (any_ix E st) f))
    (format_describes : scheme E f (conv_indexing E (any_ix E st) f)) (records_fit : record_fits E f (conv_indexing E (any_ix E st) f)),
  exists d, h2conv E code name data file out_name = Ok (Bytes E d)
  /\ exists st', open_bin E d = Ok st' /\ is_fmt E bstate st' = f /\ is_ix E bstate st' = conv_indexing E (any_ix E st) f
  /\ forall h, Forall (fun i => i < length (ix_sectors E (conv_indexing E (any_ix E st) f))) h ->
     exists rs st'', reads_bin E st' h = Ok (rs, st'') /\ Forall2 (conv_result E st ms f via_binary) h rs.
Proof. exact to_binary. Qed.
Print Assumptions C46_to_binary_partial.

(** ... the element read back is the element of the input *)
Theorem C46_exact : forall (E : env) name data file st ms f
    (whole_input : holds E name data file st ms)
    (input_library : library_indexing E (any_ix E st)) (output_library : library_indexing E (conv_indexing E (any_ix E st) f))
    (singles : exact_singles E) i' r, conv_result E st ms f via_binary i' r ->
  exists s' i s m, nth_error (ix_sectors E (conv_indexing E (any_ix E st) f)) i' = Some s' /\ nth_error (ix_sectors E (any_ix E st)) i = Some s
  /\ same_ends s s' /\ nth_error ms i = Some m /\ mat_eq r m.
Proof. exact exact_result. Qed.
Print Assumptions C46_exact.

(** C46: conversion to text *)
Theorem C46_to_text_partial : forall (E : env) name out_name data file st ms code f
    (whole_input : holds E name data file st ms)
    (input_library : library_indexing E (any_ix E st)) (output_library : library_indexing E (conv_indexing E (any_ix E st) f))
    (same_sectors : reordered E (any_ix E st) (conv_indexing E (any_ix E st) f))
    (known_format : format_of_code code = Ok f) (Henv : env_ok E) (text_output : deduced_io_mode out_name = Ok KText)
    (output_ok : indexing_ok E (conv_indexing E (any_ix E st) f))
    (format_describes : text_scheme E f (conv_indexing E (any_ix E st) f))
    (labels : Forall (labels_fit (length (ix_p E (conv_indexing E (any_ix E st) f)))) (ix_sectors E (conv_indexing E (any_ix E st) f)))
    (numbers_print : forall i' s' i s m, nth_error (ix_sectors E (conv_indexing E (any_ix E st) f)) i' = Some s' ->
       nth_error (ix_sectors E (any_ix E st)) i = Some s -> same_ends s s' -> nth_error ms i = Some m -> prints E CNone s' m),
  exists t, h2conv E code name data file out_name = Ok (Lines E t)
  /\ exists st', open_txt E t = Ok st' /\ is_fmt E (tstate E) st' = f /\ is_ix E (tstate E) st' = conv_indexing E (any_ix E st) f
  /\ forall h, Forall (fun i => i < length (ix_sectors E (conv_indexing E (any_ix E st) f))) h ->
     exists rs st'', reads_txt E st' h = Ok (rs, st'') /\ Forall2 (conv_result E st ms f (via_text E)) h rs.
Proof. exact to_text. Qed.
Print Assumptions C46_to_text_partial.

(** the sectors of the two orders are the same for operators that conserve the species *)
Theorem C46_orders : forall E ix f (isoscalar : ix_Tz0 E ix = 0%Z)
    (space : ix_space E ix = mk_space E (ix_ord E ix) (ix_p E ix) (ix_n E ix) (ix_w E ix))
    (sectors : ix_sectors E ix = mk_sectors E (ix_space E ix) (ix_J0 E ix) (ix_g0 E ix) (ix_Tz0 E ix))
    (library : library_order E (ix_p E ix) (ix_n E ix) (ix_w E ix) (ix_J0 E ix) (ix_g0 E ix)),
  reordered E ix (conv_indexing E ix f).
Proof. exact library_reordered. Qed.
Print Assumptions C46_orders.

(** the output describes the orbitals, truncation and ranks of the input, with the sectors in the order that the format prescribes *)
Theorem C46_output_indexing : forall E (ix : indexing E) f,
  ix_p E (conv_indexing E ix f) = ix_p E ix /\ ix_n E (conv_indexing E ix f) = ix_n E ix /\ ix_w E (conv_indexing E ix f) = ix_w E ix
  /\ ix_J0 E (conv_indexing E ix f) = ix_J0 E ix /\ ix_g0 E (conv_indexing E ix f) = ix_g0 E ix /\ ix_Tz0 E (conv_indexing E ix f) = ix_Tz0 E ix
  /\ (ix_ord E (conv_indexing E ix f) = KTz <-> f = V15200) /\ (ix_ord E (conv_indexing E ix f) = KPN <-> f <> V15200)
  /\ ix_space E (conv_indexing E ix f) = mk_space E (ix_ord E (conv_indexing E ix f)) (ix_p E ix) (ix_n E ix) (ix_w E ix)
  /\ ix_sectors E (conv_indexing E ix f) = mk_sectors E (ix_space E (conv_indexing E ix f)) (ix_J0 E ix) (ix_g0 E ix) (ix_Tz0 E ix).
Proof. exact output_indexing. Qed.
Print Assumptions C46_output_indexing.

(** a sector that the input does not have stops the program *)
Theorem C46_no_counterpart : forall E (ix : indexing E) s',
  (forall s, In s (ix_sectors E ix) -> ~ same_ends s s') -> library_indexing E ix ->
  (forall x, In x (ix_space E ix) -> sub_labels x = sub_labels (s_bra s') -> x = s_bra s') ->
  (forall x, In x (ix_space E ix) -> sub_labels x = sub_labels (s_ket s') -> x = s_ket s') ->
  input_sector E ix s' = None.
Proof. exact no_counterpart. Qed.
Print Assumptions C46_no_counterpart.
Theorem C46_missing_sector_stops : forall E name data file st ms out si h ost (whole_input : holds E name data file st ms)
    (missing : exists s', nth_error (ix_sectors E out) si = Some s' /\ input_sector E (any_ix E st) s' = None),
  conv_loop E out (si :: h) st ost = AssertFail.
Proof. exact loop_stops. Qed.
Print Assumptions C46_missing_sector_stops.

(** C46 is false for version 0: a space whose orbitals are not the oscillator orbitals in the usual order is written without a check, and the
    output gives the elements to other orbitals *)
Theorem C46_version_0_refuted : exists E name data file st ms out_name d st' i s m s' r st'' a b v v',
  env_ok E /\ holds E name data file st ms /\ library_indexing E (any_ix E st) /\ conv_indexing E (any_ix E st) V0 = any_ix E st
  /\ h2conv E 0%Z name data file out_name = Ok (Bytes E d) /\ open_bin E d = Ok st'
  /\ nth_error (ix_sectors E (any_ix E st)) i = Some s /\ nth_error ms i = Some m
  /\ nth_error (ix_sectors E (is_ix E bstate st')) i = Some s' /\ reads_bin E st' [i] = Ok ([r], st'')
  /\ sub_labels (s_bra s) = sub_labels (s_bra s') /\ sub_labels (s_ket s) = sub_labels (s_ket s')
  /\ labelled E (any_ix E st) s m a b a b v /\ labelled E (is_ix E bstate st') s' r a b a b v' /\ v <> v'.
Proof. exact version_0_mislabels. Qed.
Print Assumptions C46_version_0_refuted.

(** a file in pp, nn, pn order (13 sectors) meets the hypotheses of the conversion to version 15200 *)
Example C46_binary_case : exists data st ms, holds ex_env "a.bin" data no_text (inl st) ms /\ is_ix ex_env bstate st = ix0p
  /\ length (ix_sectors ex_env ix0p) = 13
  /\ library_indexing ex_env ix0p /\ library_indexing ex_env (conv_indexing ex_env ix0p V15200)
  /\ reordered ex_env ix0p (conv_indexing ex_env ix0p V15200)
  /\ map (fun s => (s_bra s, s_ket s)) (ix_sectors ex_env ix0p) <> map (fun s => (s_bra s, s_ket s)) (ix_sectors ex_env (conv_indexing ex_env ix0p V15200))
  /\ format_of_code 15200%Z = Ok V15200 /\ env_ok ex_env /\ deduced_io_mode "b.bin" = Ok KBinary
  /\ indexing_ok ex_env (conv_indexing ex_env ix0p V15200) /\ scheme ex_env V15200 (conv_indexing ex_env ix0p V15200)
  /\ record_fits ex_env V15200 (conv_indexing ex_env ix0p V15200) /\ exact_singles ex_env.
Proof.
  destruct (written_holds ex_env V0 ix0p (ex_ws CNone ix0p) "a.bin" no_text ex_env_ok (ex_indexing_ok KPN 1 1 0 0 0) scheme0p record_fits_0p) as (data & st & ms & _ & Hh & Hix & _);
    [apply ex_fits; discriminate|reflexivity|reflexivity|].
  exists data, st, ms. split; [exact Hh|]. split; [exact Hix|]. split; [exact sectors_0p|]. split; [exact lib0p|]. split; [exact lib0|].
  split; [exact re0p|]. split; [vm_compute; discriminate|]. split; [reflexivity|]. split; [exact ex_env_ok|]. split; [reflexivity|].
  split; [exact (ex_indexing_ok KTz 1 1 0 0 0)|]. split; [exact scheme0|]. split; [exact I|exact ex_exact].
Qed.
Example C46_orders_case : library_order ex_env (ix_p ex_env ix0p) (ix_n ex_env ix0p) (ix_w ex_env ix0p) 0 0 /\ ix_Tz0 ex_env ix0p = 0%Z.
Proof. split; [exact order0p|reflexivity]. Qed.
(** the order of the sectors really changes, and a charge-changing sector has no counterpart *)
Example C46_moves : map (input_sector ex_env ix0p) (ix_sectors ex_env ix0) = map Some [0; 1; 2; 3; 8; 9; 10; 11; 12; 4; 5; 6; 7].
Proof. vm_compute. reflexivity. Qed.
Example C46_no_counterpart_case : exists s', nth_error (ix_sectors ex_env ix1) 0 = Some s' /\ input_sector ex_env ix0p s' = None.
Proof. eexists. split; [reflexivity|]. vm_compute. reflexivity. Qed.
(** the same for conversion to text *)
Example C46_text_case : deduced_io_mode "b.dat" = Ok KText /\ text_scheme ex_env V15200 (conv_indexing ex_env ix0p V15200)
  /\ Forall (labels_fit (length (ix_p ex_env (conv_indexing ex_env ix0p V15200)))) (ix_sectors ex_env (conv_indexing ex_env ix0p V15200))
  /\ forall s m, prints ex_env CNone s m.
Proof.
  split; [reflexivity|]. split; [|split; [exact labels_ix0|]].
  - split; [reflexivity|]. split; [apply ex_header_fits_text; reflexivity|]. split; [reflexivity|]. split; [reflexivity|].
    split; [apply below_check_ok; vm_compute; reflexivity|]. split; reflexivity.
  - intros s m b k _. eexists. reflexivity.
Qed.
