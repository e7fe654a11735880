(** C154-C157: the program h2stat.
    The definitions used in the statements are in StatProof.v (asks, asks_usage, modes, printed_of), StatFinal.v (printed_sector, and the cases), StatModel.v (code), ConvSpec.v (reads_any, holds), H2Spec.v and H2Model.v (files). *)
From Coq Require Import String List ZArith Bool.
From Verif Require Import Base H2Model H2Spec H2RoundBin ConvModel ConvSpec ConvFinal ExEnv ExH2 StatModel StatProof StatFinal.
Import ListNotations.
Open Scope nat_scope.
Open Scope string_scope.
Open Scope list_scope.

(** C154.  The mode and the file asked for. *)
Theorem C154_mode : forall args mode file, h2stat_arguments args = AskMode mode file <-> asks args mode file.
Proof. exact arguments_mode. Qed.
Print Assumptions C154_mode.

(** C154.  When the usage message is printed. *)
Theorem C154_usage : forall args, h2stat_arguments args = AskUsage <-> asks_usage args.
Proof. exact arguments_usage. Qed.
Print Assumptions C154_usage.

(** C154.  All other command lines are refused. *)
Theorem C154_nothing : forall args, h2stat_arguments args = AskNothing <-> ~ asks_usage args /\ forall mode file, ~ asks args mode file.
Proof. exact arguments_nothing. Qed.
Print Assumptions C154_nothing.

(** C154.  Printing the usage message is a success ... *)
Theorem C154_shown : forall E disk, let h2stat := StatModel.h2stat E in
  forall args, asks_usage args -> h2stat disk args = Ok RUsage.
Proof. exact stat_usage. Qed.
Print Assumptions C154_shown.

(** C154.  ... and the other command lines end the program. *)
Theorem C154_refused : forall E disk, let h2stat := StatModel.h2stat E in
  forall args, ~ asks_usage args -> (forall mode file, ~ asks args mode file) -> h2stat disk args = Exit.
Proof. exact stat_refused. Qed.
Print Assumptions C154_refused.

(** C154.  A run that ends with success printed the usage message, or had a known mode and a file that could be opened. *)
Theorem C154_known : forall E disk, let h2stat := StatModel.h2stat E in
  forall args r, h2stat disk args = Ok r -> asks_usage args /\ r = RUsage \/ exists mode file data text st, asks args mode file /\ In mode modes /\ disk file = Some (data, text)
  /\ open_file E file data text = Ok st.
Proof. exact stat_known. Qed.
Print Assumptions C154_known.

(** C154.  Without the file the program ends. *)
Theorem C154_missing : forall E disk, let h2stat := StatModel.h2stat E in
  forall args mode file, asks args mode file -> disk file = None -> h2stat disk args = Exit.
Proof. exact stat_missing. Qed.
Print Assumptions C154_missing.

(** C154.  Also for a mode which is not known. *)
Theorem C154_unknown : forall E disk, let h2stat := StatModel.h2stat E in
  forall args mode file data text st, asks args mode file -> disk file = Some (data, text) -> open_file E file data text = Ok st -> ~ In mode modes -> h2stat disk args = Exit.
Proof. exact stat_unknown. Qed.
Print Assumptions C154_unknown.

(** C154.  A mode without a file is never accepted. *)
Theorem C154_mode_alone : forall E (disk : string -> option (list Z * tfile E)) mode r, In mode modes -> h2stat E disk ["--" ++ mode]%string <> Ok r.
Proof. exact mode_alone. Qed.
Print Assumptions C154_mode_alone.

Example C154_case : h2stat_arguments [] = AskUsage /\ h2stat_arguments ["--help"; "a.bin"] = AskUsage /\ h2stat_arguments ["a.bin"] = AskMode "header" "a.bin"
  /\ h2stat_arguments ["--verify"; "a.bin"; "b.bin"] = AskMode "verify" "a.bin" /\ h2stat_arguments ["a.bin"; "--verify"] = AskNothing /\ h2stat_arguments ["--verify"] = AskMode "header" "--verify"
  /\ h2stat_arguments ["--header"; "--help"] = AskMode "header" "--help".
Proof. exact arguments_case. Qed.

(** C155.  The modes which only need the header show what is in it. *)
Theorem C155_opened : forall E disk, let h2stat := StatModel.h2stat E in
  forall args mode file data text st, asks args mode file -> disk file = Some (data, text) -> open_file E file data text = Ok st ->
  let ix := any_ix E st in
  (mode = "header"%string -> h2stat disk args = Ok (RHeader ix)) /\ (mode = "orbitals"%string -> h2stat disk args = Ok (ROrbitals ix (ix_p E ix) (ix_n E ix)))
  /\ (mode = "indexing"%string -> h2stat disk args = Ok (RIndexing ix (ix_p E ix) (ix_n E ix) (ix_space E ix) (ix_sectors E ix))).
Proof. exact stat_opened. Qed.
Print Assumptions C155_opened.

(** C155.  The verification scan succeeds if and only if every sector can be read in order. *)
Theorem C155_verify : forall E disk, let h2stat := StatModel.h2stat E in
  forall args file data text st, asks args "verify" file -> disk file = Some (data, text) -> open_file E file data text = Ok st ->
  forall r, h2stat disk args = Ok r <-> exists ms, reads_any E st (seq 0 (length (ix_sectors E (any_ix E st)))) = Ok ms /\ r = RVerified (any_ix E st) (length ms).
Proof. exact verify_iff. Qed.
Print Assumptions C155_verify.

(** C155.  It does for a whole file, and counts its sectors. *)
Theorem C155_holds : forall E disk, let h2stat := StatModel.h2stat E in
  forall args file data text st ms, asks args "verify" file -> disk file = Some (data, text) -> holds E file data text st ms ->
  h2stat disk args = Ok (RVerified (any_ix E st) (length (ix_sectors E (any_ix E st)))).
Proof. exact verify_holds. Qed.
Print Assumptions C155_holds.

(** C155.  A version-15200 file which was cut anywhere after its header passes the default mode and is found by the scan. *)
Theorem C155_truncated : forall E disk, env_ok E -> forall ix ws data n name text, indexing_ok E ix -> scheme E V15200 ix -> Forall2 (fits_sector E) (ix_sectors E ix) ws ->
  write_file_bin E V15200 ix (whole_operator E ws) = Ok data -> deduced_io_mode name = Ok KBinary ->
  length data - 4 * list_sum (map count_held (ix_sectors E ix)) <= n -> n < length data -> disk name = Some (firstn n data, text) ->
  (forall args, asks args "header" name -> h2stat E disk args = Ok (RHeader ix))
  /\ (forall args, asks args "verify" name -> h2stat E disk args = Exit) /\ (forall args, asks args "matrices" name -> h2stat E disk args = Exit).
Proof. exact truncated_found. Qed.
Print Assumptions C155_truncated.

Example C155_written_case : env_ok ex_env /\ indexing_ok ex_env ix1 /\ scheme ex_env V15200 ix1 /\ record_fits ex_env V15200 ix1 /\ Forall2 (fits_sector ex_env) (ix_sectors ex_env ix1) (ex_ws CNone ix1)
  /\ deduced_io_mode "a.bin" = Ok KBinary.
Proof. exact written_case. Qed.

Example C155_case : length stat_data = 268 /\ list_sum (map count_held (ix_sectors ex_env ix1)) = 20 /\ verified stat_data = Some 10
  /\ refused (firstn 267 stat_data) ["--verify"; "a.bin"] = true
  /\ refused (firstn 188 stat_data) ["--verify"; "a.bin"] = true
  /\ header_sectors (firstn 188 stat_data) = Some 10
  /\ refused stat_data ["--verify"; "b.bin"] = true /\ refused stat_data ["--verified"; "a.bin"] = true.
Proof. exact verify_case. Qed.

(** C156.  The matrices printed are those in the file, with the lower triangle filled in for diagonal sectors. *)
Theorem C156_matrices : forall E disk, let h2stat := StatModel.h2stat E in
  forall args file data text st ms, asks args "matrices" file -> disk file = Some (data, text) -> holds E file data text st ms ->
  exists rs, h2stat disk args = Ok (RMatrices (any_ix E st) rs) /\ Forall2 (fun p q => fst q = fst p /\ printed_of E (fst p) (snd p) (snd q)) (combine (ix_sectors E (any_ix E st)) ms) rs.
Proof. exact matrices_holds. Qed.
Print Assumptions C156_matrices.

(** C156.  For a file written by the library, with any format version: the scan succeeds, and what is printed for every element, on both sides of the diagonal, is what was stored for it. *)
Theorem C156_written : forall E disk, env_ok E -> forall f ix ws name text, indexing_ok E ix -> scheme E f ix -> record_fits E f ix -> Forall2 (fits_sector E) (ix_sectors E ix) ws ->
  deduced_io_mode name = Ok KBinary ->
  exists data, write_file_bin E f ix (whole_operator E ws) = Ok data /\ (disk name = Some (data, text) ->
    (forall args, asks args "verify" name -> h2stat E disk args = Ok (RVerified ix (length (ix_sectors E ix))))
    /\ (forall args, asks args "matrices" name -> exists rs, h2stat E disk args = Ok (RMatrices ix rs)
        /\ Forall2 (fun p q => printed_sector E (fst p) (fst (snd p)) (snd (snd p)) q) (combine (ix_sectors E ix) ws) rs)).
Proof. exact written_shown. Qed.
Print Assumptions C156_written.

Example C156_case : option_map (fun l => nth_error l 2) shown_elements = Some (Some (true, 2, 2, [1960; 1970; 1970; 2070]%Z))
  /\ option_map (fun l => nth_error l 7) shown_elements = Some (Some (true, 4, 4, [6960; 6970; 6980; 6990; 6970; 7070; 7080; 7090; 6980; 7080; 7180; 7190; 6990; 7090; 7190; 7290]%Z)).
Proof. exact matrices_case. Qed.

(** C157 refuted: a file with more bytes after the last sector passes the scan. *)
Theorem C157_longer_refuted : exists E disk ix ws data extra, write_file_bin E V15200 ix (whole_operator E ws) = Ok data /\ extra <> [] /\ disk "a.bin" = Some (data ++ extra, TFile E [] true)
  /\ exists ix' n, h2stat E disk ["--verify"; "a.bin"] = Ok (RVerified ix' n).
Proof. exact longer_accepted. Qed.
Print Assumptions C157_longer_refuted.

(** C157 refuted: so does a file in which an element has been altered. *)
Theorem C157_altered_refuted : exists E disk ix ws data data', write_file_bin E V15200 ix (whole_operator E ws) = Ok data /\ length data' = length data /\ data' <> data /\ disk "a.bin" = Some (data', TFile E [] true)
  /\ exists ix' n, h2stat E disk ["--verify"; "a.bin"] = Ok (RVerified ix' n).
Proof. exact altered_accepted. Qed.
Print Assumptions C157_altered_refuted.

