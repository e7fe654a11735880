(** Properties C01-C15, C51, C52, C79-C81: H2 files (libraries/tbme/h2_io*.cpp).
    Vocabulary: H2Spec.v; model: H2Model.v; examples use the environment of ExEnv.v. *)
From Coq Require Import String List ZArith Bool.
From Verif Require Import Base H2Model H2Spec H2Access H2RoundBin H2RoundTxt H2Extra H2Extra2 H2Extra3 H2Final H2Layout ExEnv ExH2.
Import ListNotations.
Open Scope nat_scope.

(** ** C01 *)
Theorem C01_binary_15200_round_trip : forall E, env_ok E -> forall ix ws,
  indexing_ok E ix -> scheme E V15200 ix -> record_fits E V15200 ix ->
  Forall2 (fits_sector E) (ix_sectors E ix) ws ->
  exists data, write_file_bin E V15200 ix (whole_operator E ws) = Ok data
  /\ exists st, open_bin E data = Ok st /\ is_fmt E bstate st = V15200 /\ is_ix E bstate st = ix
  /\ forall h, Forall (fun i => i < length (ix_sectors E ix)) h ->
     exists ms st', reads_bin E st h = Ok (ms, st')
     /\ Forall2 (fun i r => exists s m c, nth_error (ix_sectors E ix) i = Some s /\ nth_error ws i = Some (m, c)
                  /\ reads_back E via_binary c s m r) h ms.
Proof. exact (fun E Henv => binary_round_trip E Henv V15200). Qed.
Print Assumptions C01_binary_15200_round_trip.

Example C01_example : env_ok ex_env /\ indexing_ok ex_env ix1 /\ scheme ex_env V15200 ix1
  /\ record_fits ex_env V15200 ix1
  /\ Forall2 (fits_sector ex_env) (ix_sectors ex_env ix1) (ex_ws CASToNAS ix1) /\ length (ix_sectors ex_env ix1) = 10.
Proof.
  exact (conj ex_env_ok (conj (ex_indexing_ok _ _ _ _ _ _) (conj scheme1 (conj I
    (conj (ex_fits CASToNAS ix1 ltac:(discriminate)) sectors_1))))).
Qed.
(** the same by running the model: write the operator, open the file, read sectors 7, 0, 7 *)
Example C01_run :
  match write_file_bin ex_env V15200 ix1 (whole_operator ex_env (ex_ws CNone ix1)) with
  | Ok data =>
      match open_bin ex_env data with
      | Ok st => match reads_bin ex_env st [7; 0; 7] with
                 | Ok (ms, _) => map (fun m => (rows m, cols m, at_ m 0 1)) ms
                 | _ => []
                 end
      | _ => []
      end
  | _ => []
  end = [(1, 2, 6970%Z); (1, 4, (-30)%Z); (1, 2, 6970%Z)].
Proof. vm_compute. reflexivity. Qed.

(** ** C02 *)
Theorem C02_text_15200_round_trip : forall E, env_ok E -> forall ix ws,
  indexing_ok E ix -> text_scheme E V15200 ix ->
  Forall (labels_fit (length (ix_p E ix))) (ix_sectors E ix) ->
  Forall2 (fits_sector E) (ix_sectors E ix) ws ->
  Forall2 (fun s w => prints E (snd w) s (fst w)) (ix_sectors E ix) ws ->
  exists file, write_file_txt E V15200 ix (whole_operator E ws) = Ok file
  /\ exists st, open_txt E file = Ok st /\ is_fmt E (tstate E) st = V15200 /\ is_ix E (tstate E) st = ix
  /\ forall h, Forall (fun i => i < length (ix_sectors E ix)) h ->
     exists ms st', reads_txt E st h = Ok (ms, st')
     /\ Forall2 (fun i r => exists s m c, nth_error (ix_sectors E ix) i = Some s /\ nth_error ws i = Some (m, c)
                  /\ reads_back E (via_text E) c s m r) h ms.
Proof. exact (fun E Henv => text_round_trip E Henv V15200). Qed.
Print Assumptions C02_text_15200_round_trip.

Example C02_example : env_ok ex_env /\ indexing_ok ex_env ix1 /\ text_scheme ex_env V15200 ix1
  /\ Forall (labels_fit (length (ix_p ex_env ix1))) (ix_sectors ex_env ix1)
  /\ Forall2 (fits_sector ex_env) (ix_sectors ex_env ix1) (ex_ws CASToNAS ix1)
  /\ Forall2 (fun s w => prints ex_env (snd w) s (fst w)) (ix_sectors ex_env ix1) (ex_ws CASToNAS ix1).
Proof.
  exact (conj ex_env_ok (conj (ex_indexing_ok _ _ _ _ _ _) (conj text_scheme1 (conj
    labels_ix1
    (conj (ex_fits CASToNAS ix1 ltac:(discriminate)) (ex_prints _ _)))))).
Qed.

(** ** C03 *)
Theorem C03_binary_15099_round_trip : forall E, env_ok E -> forall ix ws,
  indexing_ok E ix -> scheme E V15099 ix -> record_fits E V15099 ix ->
  Forall2 (fits_sector E) (ix_sectors E ix) ws ->
  exists data, write_file_bin E V15099 ix (whole_operator E ws) = Ok data
  /\ exists st, open_bin E data = Ok st /\ is_fmt E bstate st = V15099 /\ is_ix E bstate st = ix
  /\ forall h, Forall (fun i => i < length (ix_sectors E ix)) h ->
     exists ms st', reads_bin E st h = Ok (ms, st')
     /\ Forall2 (fun i r => exists s m c, nth_error (ix_sectors E ix) i = Some s /\ nth_error ws i = Some (m, c)
                  /\ reads_back E via_binary c s m r) h ms.
Proof. exact (fun E Henv => binary_round_trip E Henv V15099). Qed.
Print Assumptions C03_binary_15099_round_trip.

Example C03_example : env_ok ex_env /\ indexing_ok ex_env ix1p /\ scheme ex_env V15099 ix1p
  /\ record_fits ex_env V15099 ix1p
  /\ Forall2 (fits_sector ex_env) (ix_sectors ex_env ix1p) (ex_ws CNone ix1p) /\ length (ix_sectors ex_env ix1p) = 6.
Proof.
  exact (conj ex_env_ok (conj (ex_indexing_ok _ _ _ _ _ _) (conj scheme1p (conj
    record_fits_1p
    (conj (ex_fits CNone ix1p ltac:(discriminate)) sectors_1p))))).
Qed.

(** ** C04 *)
Theorem C04_text_15099_round_trip : forall E, env_ok E -> forall ix ws,
  indexing_ok E ix -> text_scheme E V15099 ix ->
  Forall (labels_fit (length (ix_p E ix))) (ix_sectors E ix) ->
  Forall2 (fits_sector E) (ix_sectors E ix) ws ->
  Forall2 (fun s w => prints E (snd w) s (fst w)) (ix_sectors E ix) ws ->
  exists file, write_file_txt E V15099 ix (whole_operator E ws) = Ok file
  /\ exists st, open_txt E file = Ok st /\ is_fmt E (tstate E) st = V15099 /\ is_ix E (tstate E) st = ix
  /\ forall h, Forall (fun i => i < length (ix_sectors E ix)) h ->
     exists ms st', reads_txt E st h = Ok (ms, st')
     /\ Forall2 (fun i r => exists s m c, nth_error (ix_sectors E ix) i = Some s /\ nth_error ws i = Some (m, c)
                  /\ reads_back E (via_text E) c s m r) h ms.
Proof. exact (fun E Henv => text_round_trip E Henv V15099). Qed.
Print Assumptions C04_text_15099_round_trip.

Example C04_example : env_ok ex_env /\ indexing_ok ex_env ix1p /\ text_scheme ex_env V15099 ix1p
  /\ Forall (labels_fit (length (ix_p ex_env ix1p))) (ix_sectors ex_env ix1p)
  /\ Forall2 (fits_sector ex_env) (ix_sectors ex_env ix1p) (ex_ws CNone ix1p)
  /\ Forall2 (fun s w => prints ex_env (snd w) s (fst w)) (ix_sectors ex_env ix1p) (ex_ws CNone ix1p).
Proof.
  exact (conj ex_env_ok (conj (ex_indexing_ok _ _ _ _ _ _) (conj text_scheme1p (conj
    labels_ix1p
    (conj (ex_fits CNone ix1p ltac:(discriminate)) (ex_prints _ _)))))).
Qed.

(** ** C05 *)
Theorem C05_binary_0_round_trip : forall E, env_ok E -> forall ix ws,
  indexing_ok E ix -> scheme E V0 ix -> record_fits E V0 ix ->
  Forall2 (fits_sector E) (ix_sectors E ix) ws ->
  exists data, write_file_bin E V0 ix (whole_operator E ws) = Ok data
  /\ exists st, open_bin E data = Ok st /\ is_fmt E bstate st = V0 /\ is_ix E bstate st = ix
  /\ forall h, Forall (fun i => i < length (ix_sectors E ix)) h ->
     exists ms st', reads_bin E st h = Ok (ms, st')
     /\ Forall2 (fun i r => exists s m c, nth_error (ix_sectors E ix) i = Some s /\ nth_error ws i = Some (m, c)
                  /\ reads_back E via_binary c s m r) h ms.
Proof. exact (fun E Henv => binary_round_trip E Henv V0). Qed.
Print Assumptions C05_binary_0_round_trip.

Theorem C05_text_0_round_trip : forall E, env_ok E -> forall ix ws,
  indexing_ok E ix -> text_scheme E V0 ix ->
  Forall (labels_fit (length (ix_p E ix))) (ix_sectors E ix) ->
  Forall2 (fits_sector E) (ix_sectors E ix) ws ->
  Forall2 (fun s w => prints E (snd w) s (fst w)) (ix_sectors E ix) ws ->
  exists file, write_file_txt E V0 ix (whole_operator E ws) = Ok file
  /\ exists st, open_txt E file = Ok st /\ is_fmt E (tstate E) st = V0 /\ is_ix E (tstate E) st = ix
  /\ forall h, Forall (fun i => i < length (ix_sectors E ix)) h ->
     exists ms st', reads_txt E st h = Ok (ms, st')
     /\ Forall2 (fun i r => exists s m c, nth_error (ix_sectors E ix) i = Some s /\ nth_error ws i = Some (m, c)
                  /\ reads_back E (via_text E) c s m r) h ms.
Proof. exact (fun E Henv => text_round_trip E Henv V0). Qed.
Print Assumptions C05_text_0_round_trip.

Example C05_example : env_ok ex_env /\ indexing_ok ex_env ix0p /\ scheme ex_env V0 ix0p /\ text_scheme ex_env V0 ix0p
  /\ record_fits ex_env V0 ix0p
  /\ Forall (labels_fit (length (ix_p ex_env ix0p))) (ix_sectors ex_env ix0p)
  /\ Forall2 (fits_sector ex_env) (ix_sectors ex_env ix0p) (ex_ws CNone ix0p)
  /\ Forall2 (fun s w => prints ex_env (snd w) s (fst w)) (ix_sectors ex_env ix0p) (ex_ws CNone ix0p)
  /\ length (ix_sectors ex_env ix0p) = 13.
Proof.
  exact (conj ex_env_ok (conj (ex_indexing_ok _ _ _ _ _ _) (conj scheme0p (conj scheme0p (conj
    record_fits_0p (conj
    labels_ix0p
    (conj (ex_fits CNone ix0p ltac:(discriminate)) (conj (ex_prints _ _) sectors_0p)))))))).
Qed.

(** ** C06: random access.  If reading all sectors in order succeeds and gives [ms], then any
    history of reads succeeds and gives the corresponding matrices; and whatever two histories
    deliver for the same sector of any file, well-formed or not, is the same matrix.
    (Seeking and skipping are private to ReadSector.) *)
Theorem C06_binary_random_access : forall E d st ms st1,
  open_bin E d = Ok st ->
  reads_bin E st (seq 0 (length (ix_sectors E (is_ix E bstate st)))) = Ok (ms, st1) ->
  forall h, Forall (fun i => i < length (ix_sectors E (is_ix E bstate st))) h ->
  exists st2, reads_bin E st h = Ok (map (fun i => nth i ms (mzero (d0 E) 0 0)) h, st2).
Proof. exact bin_history_progress. Qed.
Print Assumptions C06_binary_random_access.

Theorem C06_binary_any_file : forall E d st h1 h2 ms1 ms2 st1 st2 a b i,
  open_bin E d = Ok st ->
  reads_bin E st h1 = Ok (ms1, st1) -> reads_bin E st h2 = Ok (ms2, st2) ->
  nth_error h1 a = Some i -> nth_error h2 b = Some i ->
  exists m, nth_error ms1 a = Some m /\ nth_error ms2 b = Some m.
Proof. exact bin_history_consistent. Qed.
Print Assumptions C06_binary_any_file.

Theorem C06_text_random_access : forall E file st ms st1,
  open_txt E file = Ok st -> f_nl E file = true ->
  Forall canonical_sector (ix_sectors E (is_ix E (tstate E) st)) ->
  reads_txt E st (seq 0 (length (ix_sectors E (is_ix E (tstate E) st)))) = Ok (ms, st1) ->
  forall h, Forall (fun i => i < length (ix_sectors E (is_ix E (tstate E) st))) h ->
  exists st2, reads_txt E st h = Ok (map (fun i => nth i ms (mzero (d0 E) 0 0)) h, st2).
Proof. exact txt_history_progress. Qed.
Print Assumptions C06_text_random_access.

Theorem C06_text_any_file : forall E file st h1 h2 ms1 ms2 st1 st2 a b i,
  open_txt E file = Ok st ->
  Forall canonical_sector (ix_sectors E (is_ix E (tstate E) st)) ->
  reads_txt E st h1 = Ok (ms1, st1) -> reads_txt E st h2 = Ok (ms2, st2) ->
  nth_error h1 a = Some i -> nth_error h2 b = Some i ->
  exists m, nth_error ms1 a = Some m /\ nth_error ms2 b = Some m.
Proof. exact txt_history_consistent. Qed.
Print Assumptions C06_text_any_file.

(** a file meeting the hypotheses, and a history that goes backwards and forwards *)
Definition run_bin (f : format) (ix : indexing ex_env) (c : conversion) (h : list nat) : list Z :=
  match write_file_bin ex_env f ix (whole_operator ex_env (ex_ws c ix)) with
  | Ok data => match open_bin ex_env data with
               | Ok st => match reads_bin ex_env st h with Ok (ms, _) => map (fun m => at_ m 0 0) ms | _ => [] end
               | _ => []
               end
  | _ => []
  end.
Definition run_txt (f : format) (ix : indexing ex_env) (c : conversion) (h : list nat) : list Z :=
  match write_file_txt ex_env f ix (whole_operator ex_env (ex_ws c ix)) with
  | Ok file => match open_txt ex_env file with
               | Ok st => match reads_txt ex_env st h with Ok (ms, _) => map (fun m => at_ m 0 0) ms | _ => [] end
               | _ => []
               end
  | _ => []
  end.
Example C06_run : run_bin V15099 ix1p CNone (seq 0 6) = [-40; 960; 1960; 2960; 3960; 4960]%Z
  /\ run_bin V15099 ix1p CNone [5; 2; 2; 0; 4] = [4960; 1960; 1960; -40; 3960]%Z
  /\ run_txt V15200 ix1 CNone [5; 2; 2; 0; 4] = [4960; 1960; 1960; -40; 3960]%Z.
Proof. vm_compute. auto. Qed.

(** ** C07: reading a sector from any position of any file and skipping it end at the same place,
    which is not before the start. *)
Theorem C07_binary_skip_lands_where_read_lands : forall E f ix i d p m s',
  rd_bin E f ix i (BSt d p false false) = Ok (m, s') -> b_fail s' = false ->
  sk_bin E f ix i (BSt d p false false) = Ok s' /\ p <= b_pos s'.
Proof. exact skip_lands_bin. Qed.
Print Assumptions C07_binary_skip_lands_where_read_lands.

Theorem C07_text_skip_lands_where_read_lands : forall E f ix i st m st',
  Forall canonical_sector (ix_sectors E ix) -> rd_txt E f ix i st = Ok (m, st') ->
  sk_txt E f ix i st = Ok st' /\ t_pos E st <= t_pos E st'.
Proof. exact skip_lands_txt. Qed.
Print Assumptions C07_text_skip_lands_where_read_lands.

(** a version-0 sector that opens and closes a record *)
Example C07_example :
  let d := enc32 4 ++ enc32 77 ++ enc32 4 in
  let s := Sec (Sub PP 0 0 [(0, 0)]) (Sub PP 0 0 [(0, 0)]) 0 0 in
  let ix := @Ix ex_env [] [] KPN (WMax 0 0 0 0 0)%Z [] 0 0 0 [s] in
  exists m s', rd_bin ex_env V0 ix 0 (BSt d 0 false false) = Ok (m, s') /\ b_fail s' = false /\ b_pos s' = 12
  /\ at_ m 0 0 = 77%Z.
Proof. cbv zeta. eexists. eexists. split; [vm_compute; reflexivity|]. split; [reflexivity|]. split; reflexivity. Qed.

(** ** C08: the size fields of the header give, for each species announced, the number of words
    stored for it (version 0 announces pp and pn only); together they are all stored elements. *)
Theorem C08_binary_sizes : forall E f ix h data, Forall canonical_sector (ix_sectors E ix) ->
  write_file_bin E f ix h = Ok data -> length h = length (ix_sectors E ix) ->
  (exists pre parts, data = pre ++ size_fields f (ix_sectors E ix) ++ concat parts
     /\ Forall3 (bin_part E f) (ix_sectors E ix) h parts)
  /\ (forall sp, length (species_words E sp (ix_sectors E ix) (map (fun w => (snd (fst w), snd w)) h))
                 = total_held sp (ix_sectors E ix))
  /\ total_held PP (ix_sectors E ix) + total_held NN (ix_sectors E ix) + total_held PN (ix_sectors E ix)
     = list_sum (map count_held (ix_sectors E ix)).
Proof. exact sizes_bin. Qed.
Print Assumptions C08_binary_sizes.

Theorem C08_text_sizes : forall E f ix h file, Forall canonical_sector (ix_sectors E ix) ->
  Forall (labels_fit (length (ix_p E ix))) (ix_sectors E ix) -> Forall J_fits (ix_sectors E ix) ->
  (f = V0 -> sizes_below (two31 - 1) (ix_sectors E ix)) ->
  write_file_txt E f ix h = Ok file -> length h = length (ix_sectors E ix) ->
  exists pre parts, f_lines E file = pre ++ size_words E f (ix_sectors E ix) :: concat parts
     /\ Forall2 (fun s p => length p = count_held s) (ix_sectors E ix) parts.
Proof. exact sizes_txt. Qed.
Print Assumptions C08_text_sizes.

(** the size accessors of a stream *)
Theorem C08_size_by_type : forall ss, Forall canonical_sector ss ->
  t_pp (evaluate_sizes ss) = total_held PP ss /\ t_nn (evaluate_sizes ss) = total_held NN ss
  /\ t_pn (evaluate_sizes ss) = total_held PN ss.
Proof. exact tri_sizes. Qed.
Print Assumptions C08_size_by_type.

Example C08_example : Forall canonical_sector (ix_sectors ex_env ix0p)
  /\ map (fun sp => total_held sp (ix_sectors ex_env ix0p)) [PP; NN; PN] = [6; 6; 18].
Proof. exact (conj (ex_sectors_canonical _ _ _ _) eq_refl). Qed.

(** ** C09 *)
Theorem C09_fortran_records : forall E f ix ws groups data, env_ok E -> f <> V15200 ->
  indexing_ok E ix -> scheme E f ix -> record_fits E f ix ->
  grouped groups (ix_sectors E ix) -> Forall2 (fits_sector E) (ix_sectors E ix) ws ->
  write_file_bin E f ix (whole_operator E ws) = Ok data ->
  exists header, Forall (fun r => (Z.of_nat (length r) < 2147483648)%Z)
      (header ++ map (fun sp => flat_map enc32 (species_words E sp (ix_sectors E ix) ws)) (map fst groups))
  /\ data = flat_map fortran_record
      (enc32 (format_code f) :: header
       ++ map (fun sp => flat_map enc32 (species_words E sp (ix_sectors E ix) ws)) (map fst groups)).
Proof. exact fortran_file. Qed.
Print Assumptions C09_fortran_records.

Example C09_example : exists groups, grouped groups (ix_sectors ex_env ix1p) /\ map fst groups = [PP; NN; PN].
Proof.
  exists (map (fun sp => (sp, filter (fun s => species_eqb (ss_species (s_bra s)) sp) (ix_sectors ex_env ix1p))) [PP; NN; PN]).
  split; [|reflexivity]. split; [vm_compute; reflexivity|]. split.
  - repeat constructor; simpl; intuition discriminate.
  - vm_compute. repeat constructor; discriminate.
Qed.

(** ** C10: on any text file whatever *)
Theorem C10_text_labels : forall E f ix i s st m st', nth_error (ix_sectors E ix) i = Some s ->
  labels_fit (length (ix_p E ix)) s -> J_fits s ->
  rd_txt E f ix i st = Ok (m, st') ->
  let L := nonblank E (skipn (t_pos E st) (f_lines E (t_file E st))) in
  (forall j b k, nth_error (held_list s) j = Some (b, k) -> exists ln x,
     nth_error L j = Some ln /\ line_carries E f (length (ix_p E ix)) s b k ln x /\ at_ m b k = widen E x)
  /\ (forall b k, ~ held s b k -> at_ m b k = d0 E)
  /\ rows m = length (ss_states (s_bra s)) /\ cols m = length (ss_states (s_ket s)).
Proof. exact text_labels. Qed.
Print Assumptions C10_text_labels.

Theorem C10_text_error_otherwise : forall E f ix i s st, nth_error (ix_sectors E ix) i = Some s ->
  canonical_sector s -> (f = V0 -> s_bi s = s_ki s) ->
  is_ok (rd_txt E f ix i st) \/ rd_txt E f ix i st = Exit.
Proof. exact text_ok_exit. Qed.
Print Assumptions C10_text_error_otherwise.

(** one good and one wrong label *)
Example C10_example :
  let s := Sec (Sub PP 0 0 [(0, 0)]) (Sub PP 0 0 [(0, 0)]) 0 0 in
  let ix := @Ix ex_env [] [] KPN (WMax 0 0 0 0 0)%Z [] 0 0 0 [s] in
  let file i := TSt ex_env (TFile ex_env [[]; [WInt 1; WInt i; WInt 1; WInt 1; WInt 0; WInt 11; WTxt 5]%Z] true) 0 false false in
  is_ok (rd_txt ex_env V0 ix 0 (file 1%Z)) /\ rd_txt ex_env V0 ix 0 (file 2%Z) = Exit
  /\ labels_fit (length (ix_p ex_env ix)) s /\ J_fits s.
Proof.
  cbv zeta. split; [run|]. split; [run|].
  split; [apply labels_check_ok; run|]. split; reflexivity.
Qed.

(** ** C11 *)
Theorem C11_mode_from_name : forall name,
  (deduced_io_mode name = Ok KText <-> ends_with ".dat" name)
  /\ (deduced_io_mode name = Ok KBinary <-> ends_with ".bin" name)
  /\ (deduced_io_mode name = Ok KMatrix <-> ends_with ".mat" name)
  /\ (~ ends_with ".dat" name -> ~ ends_with ".bin" name -> ~ ends_with ".mat" name ->
      deduced_io_mode name = Exit).
Proof. exact mode_spec. Qed.
Print Assumptions C11_mode_from_name.

Theorem C11_binary_version : forall E v rest, in_i32 v = true ->
  (~ supported v -> open_bin E (fortran_record (enc32 v) ++ rest) = Exit)
  /\ (forall st, open_bin E (fortran_record (enc32 v) ++ rest) = Ok st -> format_code (is_fmt E bstate st) = v).
Proof. exact open_bin_version. Qed.
Print Assumptions C11_binary_version.

Theorem C11_text_version : forall E v l file, in_i32 v = true -> nth_error (f_lines E file) 0 = Some (WInt v :: l) ->
  (~ supported v -> open_txt E file = Exit)
  /\ (forall st, open_txt E file = Ok st -> format_code (is_fmt E (tstate E) st) = v).
Proof. exact open_txt_version. Qed.
Print Assumptions C11_text_version.

Theorem C11_binary_version_written : forall E f ix h data st, write_file_bin E f ix h = Ok data ->
  open_bin E data = Ok st -> is_fmt E bstate st = f.
Proof. exact version_written_bin. Qed.
Print Assumptions C11_binary_version_written.

Theorem C11_text_version_written : forall E f ix h file st, write_file_txt E f ix h = Ok file ->
  open_txt E file = Ok st -> is_fmt E (tstate E) st = f.
Proof. exact version_written_txt. Qed.
Print Assumptions C11_text_version_written.

Example C11_example : deduced_io_mode "tbme-H.bin" = Ok KBinary /\ deduced_io_mode "a.dat.bin.dat" = Ok KText
  /\ deduced_io_mode "bin" = Exit /\ deduced_io_mode "h2.txt" = Exit
  /\ open_bin ex_env (fortran_record (enc32 15098) ++ [1; 2; 3]%Z) = Exit
  /\ run_bin V0 ix0p CNone [0] <> [] /\ run_txt V15200 ix0 CNone [0] <> [].
Proof. repeat split; try run; vm_compute; discriminate. Qed.

(** ** C12: [n] is the length of what is left of the file.  The header must be there (see C51). *)
Theorem C12_truncated_15200 : forall E, env_ok E -> forall ix ws data n,
  indexing_ok E ix -> scheme E V15200 ix -> Forall2 (fits_sector E) (ix_sectors E ix) ws ->
  write_file_bin E V15200 ix (whole_operator E ws) = Ok data ->
  let header := length data - 4 * list_sum (map count_held (ix_sectors E ix)) in
  header <= n ->
  exists st, open_bin E (firstn n data) = Ok st /\ is_ix E bstate st = ix
  /\ forall h i s, Forall (fun i => i < length (ix_sectors E ix)) h -> In i h ->
     nth_error (ix_sectors E ix) i = Some s -> 0 < count_held s ->
     n < header + 4 * list_sum (map count_held (firstn (i + 1) (ix_sectors E ix))) ->
     reads_bin E st h = Exit.
Proof. exact truncated_15200. Qed.
Print Assumptions C12_truncated_15200.

(** the file of C01, cut after 210 of its 268 bytes: sectors 0 and 1 survive, sector 2 does not *)
Definition cut_read (n : nat) (h : list nat) : outcome (list Z) :=
  match write_file_bin ex_env V15200 ix1 (whole_operator ex_env (ex_ws CNone ix1)) with
  | Ok data => match open_bin ex_env (firstn n data) with
               | Ok st => match reads_bin ex_env st h with
                          | Ok (ms, _) => Ok (map (fun m => at_ m 0 0) ms)
                          | Exit => Exit | AssertFail => AssertFail | UB => UB
                          end
               | _ => UB
               end
  | _ => UB
  end.
Example C12_example :
  (match write_file_bin ex_env V15200 ix1 (whole_operator ex_env (ex_ws CNone ix1)) with Ok d => length d | _ => 0 end) = 268
  /\ cut_read 210 [0; 1] = Ok [-40; 960]%Z /\ cut_read 210 [0; 2] = Exit /\ cut_read 210 [1; 9] = Exit.
Proof. vm_compute. auto. Qed.

(** ** C13: what is stored for an element, and that the files store exactly that *)
Theorem C13_factor : forall E, (forall x, dmul E (d1 E) x = x) -> forall c s m b k,
  file_bits E c s m b k =
  narrow E (match c, like_pair (s_bra s) b, like_pair (s_ket s) k with
            | CASToNAS, true, true => dmul E (dmul E (dinvsqrt2 E) (dinvsqrt2 E)) (at_ m b k)
            | CASToNAS, true, false | CASToNAS, false, true => dmul E (dinvsqrt2 E) (at_ m b k)
            | _, _, _ => at_ m b k
            end).
Proof. exact file_bits_cases. Qed.
Print Assumptions C13_factor.

Theorem C13_binary_stored : forall E f ix h data, Forall canonical_sector (ix_sectors E ix) ->
  write_file_bin E f ix h = Ok data ->
  exists st0 parts, create_bin E f ix = Ok st0 /\ data = os_out E Z st0 ++ concat parts
  /\ Forall3 (bin_part E f) (firstn (length h) (ix_sectors E ix)) h parts.
Proof. exact write_contents_bin. Qed.
Print Assumptions C13_binary_stored.

Theorem C13_text_stored : forall E f ix h file, Forall canonical_sector (ix_sectors E ix) ->
  Forall (labels_fit (length (ix_p E ix))) (ix_sectors E ix) -> Forall J_fits (ix_sectors E ix) ->
  write_file_txt E f ix h = Ok file ->
  exists st0 parts, create_txt E f ix = Ok st0
  /\ file = TFile E (os_out E (list (word (txt E))) st0 ++ concat parts) true
  /\ Forall3 (txt_part E f (length (ix_p E ix))) (firstn (length h) (ix_sectors E ix)) h parts.
Proof. exact write_contents_txt. Qed.
Print Assumptions C13_text_stored.

(** in the example environment 1/sqrt(2) is played by 3: pp element (00|00), then pn element *)
Example C13_example :
  let s sp := Sec (Sub sp 0 0 [(0, 0); (0, 1)]) (Sub sp 0 0 [(0, 0); (0, 1)]) 0 0 in
  let m := Mat 2 2 (fun b k => 10 + Z.of_nat b + Z.of_nat k)%Z in
  (map (fun p => file_bits ex_env CASToNAS (s PP) m (fst p) (snd p)) [(0, 0); (0, 1); (1, 1)] = [90; 33; 12]%Z
  /\ map (fun p => file_bits ex_env CASToNAS (s PN) m (fst p) (snd p)) [(0, 0); (0, 1); (1, 1)] = [10; 11; 12]%Z
  /\ map (fun p => file_bits ex_env CNone (s PP) m (fst p) (snd p)) [(0, 0); (0, 1); (1, 1)] = [10; 11; 12]%Z)
  /\ forall x, dmul ex_env (d1 ex_env) x = x.
Proof. cbv zeta. split; [vm_compute; auto|]. exact Z.mul_1_l. Qed.

(** ** C14: any history of writes that completes consists of the sectors 0, 1, 2, ... with
    matrices of their dimensions, and (C13_binary_stored, C13_text_stored) the file holds
    exactly these sectors in this order. *)
Theorem C14_binary_write_order : forall E f ix h data, write_file_bin E f ix h = Ok data -> in_order E ix h.
Proof. exact write_order_bin. Qed.
Print Assumptions C14_binary_write_order.

Theorem C14_text_write_order : forall E f ix h file, write_file_txt E f ix h = Ok file -> in_order E ix h.
Proof. exact write_order_txt. Qed.
Print Assumptions C14_text_write_order.

Example C14_example :
  let ws := whole_operator ex_env (ex_ws CNone ix1) in
  let w i := nth i ws (0, mzero 0%Z 0 0, CNone) in
  is_ok (write_file_bin ex_env V15200 ix1 [w 0; w 1; w 2])
  /\ write_file_bin ex_env V15200 ix1 [w 1] = AssertFail
  /\ write_file_bin ex_env V15200 ix1 [w 0; w 1; w 1] = AssertFail
  /\ write_file_bin ex_env V15200 ix1 [w 0; w 2; w 1] = AssertFail.
Proof. cbv zeta. repeat split; run. Qed.

(** ** C15 (false of the code): a text file without a final newline can be read from start to
    end, but after its last sector has been read no sector can be read any more. *)
Definition file15 (nl : bool) : tfile ex_env :=
  match write_file_txt ex_env V15200 ix0 (whole_operator ex_env (ex_ws CNone ix0)) with
  | Ok file => TFile ex_env (f_lines ex_env file) nl
  | _ => TFile ex_env [] nl
  end.
Theorem C15_no_final_newline_refuted : exists (E : env) (file : tfile E) st ms st1,
  f_nl E file = false
  /\ open_txt E file = Ok st
  /\ Forall canonical_sector (ix_sectors E (is_ix E (tstate E) st))
  /\ reads_txt E st (seq 0 (length (ix_sectors E (is_ix E (tstate E) st)))) = Ok (ms, st1)
  /\ is_ok (reads_txt E st [0; 0])
  /\ reads_txt E st [length (ix_sectors E (is_ix E (tstate E) st)) - 1; 0] = Exit.
Proof.
  exists ex_env, (file15 false).
  assert (Ho : is_ok (open_txt ex_env (file15 false))) by run.
  assert (Hix : match open_txt ex_env (file15 false) with Ok st => ix_sectors ex_env (is_ix ex_env (tstate ex_env) st) | _ => [] end
                = ix_sectors ex_env ix0) by (vm_compute; reflexivity).
  assert (Hr : match open_txt ex_env (file15 false) with
               | Ok st => (match reads_txt ex_env st (seq 0 13) with Ok _ => true | _ => false end,
                           match reads_txt ex_env st [0; 0] with Ok _ => true | _ => false end,
                           match reads_txt ex_env st [12; 0] with Exit => true | _ => false end)
               | _ => (false, false, false)
               end = (true, true, true)) by (vm_compute; reflexivity).
  destruct Ho as [st Ho]. rewrite Ho in Hr, Hix. rewrite Ho. pose proof (f_equal (fun p => fst (fst p)) Hr) as H1. pose proof (f_equal (fun p => snd (fst p)) Hr) as H2.
  pose proof (f_equal snd Hr) as H3. cbn [fst snd] in H1, H2, H3. clear Hr.
  exists st. rewrite Hix.
  change (length (ix_sectors ex_env ix0)) with 13.
  destruct (reads_txt ex_env st (seq 0 13)) as [[ms st1]| | |]; try discriminate H1.
  exists ms, st1. split; [reflexivity|]. split; [reflexivity|]. split; [apply ex_sectors_canonical|]. split; [reflexivity|]. split.
  - destruct (reads_txt ex_env st [0; 0]) as [x| | |]; try discriminate H2. exists x. reflexivity.
  - change (13 - 1) with 12. destruct (reads_txt ex_env st [12; 0]); try discriminate H3. reflexivity.
Qed.
Print Assumptions C15_no_final_newline_refuted.

(** ** C51 (false of the code): a file that ends inside its header should be refused with an
    error; instead the reader uses variables that were never set. *)
Theorem C51_truncated_header_refuted : exists E ix ws data n,
  env_ok E /\ indexing_ok E ix /\ scheme E V15200 ix /\ Forall2 (fits_sector E) (ix_sectors E ix) ws
  /\ write_file_bin E V15200 ix (whole_operator E ws) = Ok data
  /\ n < length data /\ open_bin E (firstn n data) = UB.
Proof.
  exists ex_env, ix0, (ex_ws CNone ix0).
  assert (H : match write_file_bin ex_env V15200 ix0 (whole_operator ex_env (ex_ws CNone ix0)) with
              | Ok d => (Nat.ltb 50 (length d) && match open_bin ex_env (firstn 50 d) with UB => true | _ => false end)%bool
              | _ => false
              end = true) by (vm_compute; reflexivity).
  destruct (write_file_bin ex_env V15200 ix0 (whole_operator ex_env (ex_ws CNone ix0))) as [d| | |]; try discriminate H.
  apply andb_prop in H. destruct H as [Hl Hu].
  exists d, 50. split; [exact ex_env_ok|]. split; [apply ex_indexing_ok|]. split; [exact scheme0|].
  split; [apply ex_fits; discriminate|]. split; [reflexivity|].
  split; [apply Nat.ltb_lt; exact Hl|apply ub_true; exact Hu].
Qed.
Print Assumptions C51_truncated_header_refuted.

(** ** C52 (false of the code): names ending in .mat are accepted, a whole operator can be
    written to such a file, and nothing can be read back: opening it is undefined. *)
Theorem C52_matrix_mode_refuted : (forall E name data file, ends_with ".mat" name -> open_file E name data file = UB)
  /\ exists E ix ws, indexing_ok E ix /\ Forall2 (fits_sector E) (ix_sectors E ix) ws
     /\ write_file E "h2.mat" V15200 ix (whole_operator E ws) = Ok (Bytes E []).
Proof.
  split; [exact open_mat_UB|]. exists ex_env, ix0, (ex_ws CNone ix0).
  split; [apply ex_indexing_ok|]. split; [apply ex_fits; discriminate|]. cbn [write_file]. reflexivity.
Qed.
Print Assumptions C52_matrix_mode_refuted.

(** ** C79: files have the layout of the format descriptions (doc_15200, doc_15099, doc_0 and
    doc_txt_... of H2Layout.v, written from doc/h2). *)
Theorem C79_binary_header : forall E f ix st, Forall canonical_sector (ix_sectors E ix) ->
  create_bin E f ix = Ok st -> os_out E Z st = header_bytes E f ix.
Proof. exact layout_bin. Qed.
Print Assumptions C79_binary_header.

Theorem C79_text_header : forall E f ix st, Forall canonical_sector (ix_sectors E ix) ->
  (f = V0 -> sizes_below (two31 - 1) (ix_sectors E ix)) ->
  create_txt E f ix = Ok st -> os_out E (list (word (txt E))) st = header_lines E f ix.
Proof. exact layout_txt. Qed.
Print Assumptions C79_text_header.

(** binary files of version 15200 (for the other versions see C09) *)
Theorem C79_binary_15200 : forall E ix h data, Forall canonical_sector (ix_sectors E ix) ->
  write_file_bin E V15200 ix h = Ok data -> length h = length (ix_sectors E ix) ->
  data = header_bytes E V15200 ix
         ++ ints (concat (map (fun p => sector_words E (fst p) (snd (fst (snd p)), snd (snd p))) (combine (ix_sectors E ix) h))).
Proof. exact file_15200. Qed.
Print Assumptions C79_binary_15200.

Theorem C79_text : forall E f ix h file, Forall canonical_sector (ix_sectors E ix) ->
  Forall (labels_fit (length (ix_p E ix))) (ix_sectors E ix) -> Forall J_fits (ix_sectors E ix) ->
  (f = V0 -> sizes_below (two31 - 1) (ix_sectors E ix)) ->
  write_file_txt E f ix h = Ok file -> length h = length (ix_sectors E ix) ->
  f_nl E file = true /\
  f_lines E file = header_lines E f ix
    ++ concat (map (fun p => map (fun e => wints (element_labels f (length (ix_p E ix)) (fst p) (fst e) (snd e))
                        ++ [WTxt (fmt_f E (file_bits E (snd (snd p)) (fst p) (snd (fst (snd p))) (fst e) (snd e)))]) (held_list (fst p)))
                (combine (ix_sectors E ix) h)).
Proof. exact file_txt. Qed.
Print Assumptions C79_text.

(** the header of a version-15200 file in bytes, as in the format description: 1 proton and 1
    neutron orbital 0s1/2, weights 0; J0 g0 Tz0 = 0 0 0; weights 0; sizes 1, 2, 1 *)
Example C79_example :
  let ix := ex_ix KTz 0 0 0 0 0 in
  match create_bin ex_env V15200 ix with
  | Ok st => os_out ex_env Z st =
      flat_map enc32 [4; 15200; 4; 1; 1; 0; 0; 0; 0; 1; 1; 1; -1; 0; 0; 0; 0; 0; 0; 0; 0]%Z ++ flat_map enc64 [1; 2; 1]%Z
  | _ => False
  end
  /\ match create_txt ex_env V15099 (ex_ix KPN 0 0 0 0 0) with
     | Ok st => os_out ex_env _ st =
         [[WInt 15099]; [WInt 1; WInt 1]; [WInt 1; WInt 0; WInt 0; WInt 1; WTxt 0]; [WInt 2; WInt 0; WInt 0; WInt 1; WTxt 0];
          [WInt 0; WInt 0; WInt 0]; [WTxt 0; WTxt 0]; [WTxt 0; WTxt 0; WTxt 0]; [WInt 0; WInt 0; WInt 2]; [WInt 1; WInt 1; WInt 2]]%Z
     | _ => False
     end.
Proof. vm_compute. split; reflexivity. Qed.

(** ** C80: what the readers make of a header of documented layout with arbitrary fields.  The
    stream uses exactly the orbitals, weights and quantum numbers of the header; a header that
    announces other sizes than the sectors have is refused, and in version 15099 a nonzero Tz0. *)
Theorem C80_binary_15200 : forall E np nn ns ls js tzs ws J0 g0 Tz0 wpp wpn wnn spp spn snn rest,
  same_length (length ns) [ls; js; tzs; ws] -> (np + nn = Z.of_nat (length ns))%Z ->
  words32 ([np; nn; np + nn; J0; g0; Tz0]%Z ++ ns ++ ls ++ js ++ tzs) -> floats32 ([wpp; wpn; wnn] ++ ws) ->
  Forall (fun z => in_i64 z = true) [spp; spn; snn] ->
  let data := doc_15200 np nn ns ls js tzs ws [J0; g0; Tz0] [wpp; wpn; wnn] [spp; spn; snn] ++ rest in
  let os := orbitals_of E ns ls js tzs ws in
  let p := of_species E SP os in let n := of_species E SN os in
  let w := WMax (widen E (narrow E (weight_max_of E p))) (widen E (narrow E (weight_max_of E n)))
             (widen E wpp) (widen E wnn) (widen E wpn) in
  let ix := indexing_of E KTz p n w J0 g0 Tz0 in
  sane E ix ->
  (Forall (fun t => t = 1 \/ t = -1)%Z tzs -> announces E ix spp snn spn ->
     exists st, open_bin E data = Ok st /\ is_fmt E bstate st = V15200 /\ is_ix E bstate st = ix)
  /\ (Forall (fun t => t = 1 \/ t = -1)%Z tzs -> ~ announces E ix spp snn spn -> open_bin E data = AssertFail)
  /\ (~ Forall (fun t => t = 1 \/ t = -1)%Z tzs -> ~ is_ok (open_bin E data)).
Proof. exact reader_bin_15200. Qed.
Print Assumptions C80_binary_15200.

Theorem C80_binary_15099 : forall E pn pl pj pw nn_ nl nj nw J0 g0 Tz0 wp wn wpp wnn wpn Ja Jb Jc a b c rest,
  same_length (length pn) [pl; pj; pw] -> same_length (length nn_) [nl; nj; nw] ->
  words32 ([Z.of_nat (length pn); Z.of_nat (length nn_); J0; g0; Tz0; Ja; Jb; Jc; a; b; c] ++ pn ++ pl ++ pj ++ nn_ ++ nl ++ nj) ->
  floats32 ([wp; wn; wpp; wnn; wpn] ++ pw ++ nw) ->
  let data := doc_15099 (Z.of_nat (length pn)) (Z.of_nat (length nn_)) pn pl pj pw nn_ nl nj nw
                [J0; g0; Tz0] [wp; wn] [wpp; wnn; wpn] [Ja; Jb; Jc] [a; b; c] ++ rest in
  let os := orbitals_of E pn pl pj (repeat 1%Z (length pn)) pw ++ orbitals_of E nn_ nl nj (repeat (-1)%Z (length nn_)) nw in
  let ix := indexing_of E KPN (of_species E SP os) (of_species E SN os)
              (WMax (widen E wp) (widen E wn) (widen E wpp) (widen E wnn) (widen E wpn)) J0 g0 Tz0 in
  sane E ix ->
  (Tz0 = 0%Z -> announces E ix a b c -> announces_J E ix Ja Jb Jc ->
     exists st, open_bin E data = Ok st /\ is_fmt E bstate st = V15099 /\ is_ix E bstate st = ix)
  /\ (Tz0 <> 0%Z -> open_bin E data = Exit)
  /\ (Tz0 = 0%Z -> ~ (announces E ix a b c /\ announces_J E ix Ja Jb Jc) -> open_bin E data = AssertFail).
Proof. exact reader_bin_15099. Qed.
Print Assumptions C80_binary_15099.

Theorem C80_binary_0 : forall E types N1 N2 like unlike rest, words32 [types; N1; N2; like; unlike] ->
  let data := doc_0 types N1 N2 like unlike ++ rest in
  let ix := indexing_of E KPN (fst (osc_orbitals E N1)) (snd (osc_orbitals E N1)) (osc_wmax E N1 N2) 0 0 0 in
  sane E ix ->
  let good := types = 2%Z /\ Z.of_nat (total_held PP (ix_sectors E ix)) = like /\ Z.of_nat (total_held PN (ix_sectors E ix)) = unlike in
  (good -> exists st, open_bin E data = Ok st /\ is_fmt E bstate st = V0 /\ is_ix E bstate st = ix)
  /\ (~ good -> open_bin E data = AssertFail).
Proof. exact reader_bin_0. Qed.
Print Assumptions C80_binary_0.

Theorem C80_text_15200 : forall E np nn orbs os J0 g0 Tz0 t1 t2 t3 wpp wpn wnn spp spn snn rest,
  (np + nn = Z.of_nat (length orbs))%Z -> (0 <= np)%Z -> (0 <= nn)%Z -> (Z.of_nat (length orbs) < two64)%Z ->
  Forall (fun l => l <> []) orbs -> parse_orbs E V15200 orbs = Ok os ->
  words32 [J0; g0; Tz0] -> reads_as E t1 wpp -> reads_as E t2 wpn -> reads_as E t3 wnn ->
  Forall (fun z => in_i64 z = true) [spp; spn; snn] ->
  let file := TFile E (doc_txt_15200 np nn orbs [J0; g0; Tz0] [t1; t2; t3] [spp; spn; snn] ++ rest) true in
  let p := of_species E SP os in let n := of_species E SN os in
  let w := WMax (widen E (narrow E (weight_max_of E p))) (widen E (narrow E (weight_max_of E n)))
             (widen E wpp) (widen E wnn) (widen E wpn) in
  let ix := indexing_of E KTz p n w J0 g0 Tz0 in
  sane E ix ->
  (announces E ix spp snn spn ->
     exists st, open_txt E file = Ok st /\ is_fmt E (tstate E) st = V15200 /\ is_ix E (tstate E) st = ix)
  /\ (~ announces E ix spp snn spn -> open_txt E file = AssertFail).
Proof. exact reader_txt_15200. Qed.
Print Assumptions C80_text_15200.

Theorem C80_text_15099 : forall E np nn orbs os J0 g0 Tz0 t1 t2 t3 t4 t5 wp wn wpp wnn wpn Ja Jb Jc a b c rest,
  (np + nn = Z.of_nat (length orbs))%Z -> (0 <= np)%Z -> (0 <= nn)%Z -> (Z.of_nat (length orbs) < two64)%Z ->
  Forall (fun l => l <> []) orbs -> parse_orbs E V15099 orbs = Ok os ->
  words32 [J0; g0; Tz0; Ja; Jb; Jc; a; b; c] ->
  reads_as E t1 wp -> reads_as E t2 wn -> reads_as E t3 wpp -> reads_as E t4 wnn -> reads_as E t5 wpn ->
  let file := TFile E (doc_txt_15099 np nn orbs [J0; g0; Tz0] [t1; t2] [t3; t4; t5] [Ja; Jb; Jc] [a; b; c] ++ rest) true in
  let ix := indexing_of E KPN (of_species E SP os) (of_species E SN os)
              (WMax (widen E wp) (widen E wn) (widen E wpp) (widen E wnn) (widen E wpn)) J0 g0 Tz0 in
  sane E ix ->
  (Tz0 = 0%Z -> announces E ix a b c -> announces_J E ix Ja Jb Jc ->
     exists st, open_txt E file = Ok st /\ is_fmt E (tstate E) st = V15099 /\ is_ix E (tstate E) st = ix)
  /\ (Tz0 <> 0%Z -> open_txt E file = Exit)
  /\ (Tz0 = 0%Z -> ~ (announces E ix a b c /\ announces_J E ix Ja Jb Jc) -> open_txt E file = AssertFail).
Proof. exact reader_txt_15099. Qed.
Print Assumptions C80_text_15099.

Theorem C80_text_0 : forall E types N1 N2 like unlike rest, words32 [types; N1; N2; like; unlike] ->
  let file := TFile E (doc_txt_0 types N1 N2 like unlike ++ rest) true in
  let ix := indexing_of E KPN (fst (osc_orbitals E N1)) (snd (osc_orbitals E N1)) (osc_wmax E N1 N2) 0 0 0 in
  sane E ix ->
  let good := types = 2%Z /\ Z.of_nat (total_held PP (ix_sectors E ix)) = like /\ Z.of_nat (total_held PN (ix_sectors E ix)) = unlike in
  (good -> exists st, open_txt E file = Ok st /\ is_fmt E (tstate E) st = V0 /\ is_ix E (tstate E) st = ix)
  /\ (~ good -> open_txt E file = AssertFail).
Proof. exact reader_txt_0. Qed.
Print Assumptions C80_text_0.

(** sector indices beyond the last sector; and the assertions that remain in mode kMatrix *)
Theorem C80_sector_index : forall E,
  (forall st i h, length (ix_sectors E (is_ix E bstate st)) <= i -> reads_bin E st (i :: h) = AssertFail)
  /\ (forall st i h, length (ix_sectors E (is_ix E (tstate E) st)) <= i -> reads_txt E st (i :: h) = AssertFail).
Proof. exact (fun E => conj (sector_range_bin E) (sector_range_txt E)). Qed.
Print Assumptions C80_sector_index.

Theorem C80_matrix_mode_order : forall E name f ix h r, ends_with ".mat" name -> write_file E name f ix h = Ok r ->
  in_order E ix h /\ ix_ord E ix = (match f with V15200 => KTz | _ => KPN end)
  /\ Forall (fun s => s_bi s <= s_ki s /\ (f = V0 -> s_bi s = s_ki s)) (firstn (length h) (ix_sectors E ix)).
Proof. exact matrix_order. Qed.
Print Assumptions C80_matrix_mode_order.

(** good header; wrong size; wrong number of species; nonzero Tz0 in version 15099; a third charge *)
Definition outcome_kind {A} (o : outcome A) : nat := match o with Ok _ => 0 | Exit => 1 | AssertFail => 2 | UB => 3 end.
Example C80_example :
  map (fun l => outcome_kind (open_bin ex_env l))
    [doc_15200 1 1 [0; 0] [0; 0] [1; 1] [1; -1] [0; 0] [0; 0; 0] [0; 0; 0] [1; 2; 1];
     doc_15200 1 1 [0; 0] [0; 0] [1; 1] [1; -1] [0; 0] [0; 0; 0] [0; 0; 0] [1; 3; 1];
     doc_15200 1 1 [0; 0] [0; 0] [1; 1] [1; 3] [0; 0] [0; 0; 0] [0; 0; 0] [1; 2; 1];
     doc_15099 1 1 [0] [0] [1] [0] [0] [0] [1] [0] [0; 0; 0] [0; 0] [0; 0; 0] [0; 0; 2] [1; 1; 2];
     doc_15099 1 1 [0] [0] [1] [0] [0] [0] [1] [0] [0; 0; 1] [0; 0] [0; 0; 0] [0; 0; 2] [0; 0; 0];
     doc_15099 1 1 [0] [0] [1] [0] [0] [0] [1] [0] [0; 0; 0] [0; 0] [0; 0; 0] [2; 0; 2] [1; 1; 2];
     doc_0 2 1 1 6 18; doc_0 1 1 1 6 18; doc_0 2 1 1 6 17]%Z
  = [0; 2; 3; 0; 1; 2; 0; 2; 2].
Proof. vm_compute. reflexivity. Qed.

(** ** C81 (false of the code): writers and readers keep to the restrictions of the format
    descriptions.
    1. Version 15099, "Tz0: RESERVED, MUST be zero": an operator with Tz0 = 1 is written without
       complaint, and the file cannot be opened.
    2. Version 0 describes oscillator orbitals by a cutoff: other orbitals are written without
       complaint, and reading gives the elements to the oscillator orbitals.
    3. Version 15200, Tz0 must not be negative: it is accepted in writing and reading.
    4. Version 15200: the numbers of proton and neutron orbitals announced are not compared with
       the orbitals listed.
    5. The binary header printed in the description of version 0 (28 bytes) is refused. *)
Definition renamed (ix : indexing ex_env) : indexing ex_env :=
  let up o := Orb (o_sp o) (o_n o + 5) (o_l o) (o_2j o) (o_w o) in
  @Ix ex_env (map up (ix_p ex_env ix)) (map up (ix_n ex_env ix)) (ix_ord ex_env ix) (ix_w ex_env ix) (ix_space ex_env ix)
    (ix_J0 ex_env ix) (ix_g0 ex_env ix) (ix_Tz0 ex_env ix) (ix_sectors ex_env ix).
Lemma renamed_ok : indexing_ok ex_env (renamed ix0p).
Proof.
  constructor.
  - vm_compute. reflexivity.
  - vm_compute. reflexivity.
  - apply ex_sectors_canonical.
  - apply Forall_map. apply (Forall_impl _ (fun o H => H) (ex_osc_species SP 1)).
  - apply Forall_map. apply (Forall_impl _ (fun o H => H) (ex_osc_species SN 1)).
Qed.
Theorem C81_restrictions_refuted :
  (exists E ix ws data, env_ok E /\ indexing_ok E ix /\ Forall2 (fits_sector E) (ix_sectors E ix) ws
     /\ ix_Tz0 E ix = 1%Z /\ write_file_bin E V15099 ix (whole_operator E ws) = Ok data /\ open_bin E data = Exit)
  /\ (exists E ix ws data st, env_ok E /\ indexing_ok E ix /\ Forall2 (fits_sector E) (ix_sectors E ix) ws
     /\ write_file_bin E V0 ix (whole_operator E ws) = Ok data /\ open_bin E data = Ok st
     /\ ix_p E (is_ix E bstate st) <> ix_p E ix)
  /\ (exists E ix ws data st, env_ok E /\ indexing_ok E ix /\ Forall2 (fits_sector E) (ix_sectors E ix) ws
     /\ ix_Tz0 E ix = (-1)%Z /\ write_file_bin E V15200 ix (whole_operator E ws) = Ok data /\ open_bin E data = Ok st)
  /\ (exists E st, env_ok E
     /\ open_bin E (doc_15200 0 2 [0; 0] [0; 0] [1; 1] [1; -1] [0; 0] [0; 0; 0] [0; 0; 0] [1; 2; 1])%Z = Ok st
     /\ length (ix_p E (is_ix E bstate st)) = 1 /\ length (ix_n E (is_ix E bstate st)) = 1)
  /\ (forall E rest, open_bin E (fortran_record (ints [0]) ++ fortran_record (ints [2; 0; 0; 3; 4; 381; 1456]) ++ rest)%Z = Exit).
Proof.
  split; [|split; [|split; [|split]]].
  - exists ex_env, (ex_ix KPN 1 1 1 1 1), (ex_ws CNone (ex_ix KPN 1 1 1 1 1)).
    assert (H : match write_file_bin ex_env V15099 (ex_ix KPN 1 1 1 1 1) (whole_operator ex_env (ex_ws CNone (ex_ix KPN 1 1 1 1 1))) with
                | Ok d => match open_bin ex_env d with Exit => true | _ => false end | _ => false end = true) by (vm_compute; reflexivity).
    destruct (write_file_bin ex_env V15099 _ _) as [d| | |]; try discriminate H.
    exists d. split; [exact ex_env_ok|]. split; [apply ex_indexing_ok|]. split; [apply ex_fits; discriminate|].
    split; [reflexivity|]. split; [reflexivity|]. destruct (open_bin ex_env d); try discriminate H. reflexivity.
  - exists ex_env, (renamed ix0p), (ex_ws CNone ix0p).
    assert (H : match write_file_bin ex_env V0 (renamed ix0p) (whole_operator ex_env (ex_ws CNone ix0p)) with
                | Ok d => match open_bin ex_env d with Ok st => map o_n (ix_p ex_env (is_ix ex_env bstate st)) | _ => [] end | _ => [] end
                = [0; 0; 0]%Z) by (vm_compute; reflexivity).
    destruct (write_file_bin ex_env V0 _ _) as [d| | |]; try discriminate H.
    destruct (open_bin ex_env d) as [st| | |] eqn:Ho; try discriminate H.
    exists d, st. split; [exact ex_env_ok|]. split; [exact renamed_ok|]. split; [exact (ex_fits CNone ix0p ltac:(discriminate))|].
    split; [reflexivity|]. split; [exact Ho|]. intros Hp. rewrite Hp in H. vm_compute in H. discriminate H.
  - exists ex_env, (ex_ix KTz 1 1 1 1 (-1)), (ex_ws CNone (ex_ix KTz 1 1 1 1 (-1))).
    assert (H : match write_file_bin ex_env V15200 (ex_ix KTz 1 1 1 1 (-1)) (whole_operator ex_env (ex_ws CNone (ex_ix KTz 1 1 1 1 (-1)))) with
                | Ok d => match open_bin ex_env d with Ok _ => true | _ => false end | _ => false end = true) by (vm_compute; reflexivity).
    destruct (write_file_bin ex_env V15200 _ _) as [d| | |]; try discriminate H.
    destruct (open_bin ex_env d) as [st| | |] eqn:Ho; try discriminate H.
    exists d, st. split; [exact ex_env_ok|]. split; [apply ex_indexing_ok|]. split; [apply ex_fits; discriminate|].
    split; [reflexivity|]. split; [reflexivity|]. exact Ho.
  - exists ex_env.
    assert (H : match open_bin ex_env (doc_15200 0 2 [0; 0] [0; 0] [1; 1] [1; -1] [0; 0] [0; 0; 0] [0; 0; 0] [1; 2; 1])%Z with
                | Ok st => (length (ix_p ex_env (is_ix ex_env bstate st)), length (ix_n ex_env (is_ix ex_env bstate st))) | _ => (0, 0) end = (1, 1))
      by (vm_compute; reflexivity).
    destruct (open_bin ex_env _) as [st| | |] eqn:Ho; try discriminate H. injection H as H1 H2.
    exists st. split; [exact ex_env_ok|]. split; [reflexivity|]. split; assumption.
  - exact v0_example_refused.
Qed.
Print Assumptions C81_restrictions_refuted.
