{
 "claims": [
  {
   "property": "C01",
   "status": "proved",
   "theorems": [
    "C01_binary_15200_round_trip"
   ],
   "note": "For all environments (floating-point conversions and basis library) satisfying env_ok; header and J-fit conditions are in `scheme`."
  },
  {
   "property": "C02",
   "status": "proved",
   "theorems": [
    "C02_text_15200_round_trip"
   ],
   "note": "Numbers read back are scan(print(x)), for any printing and scanning functions that work on the printed elements (`prints`)."
  },
  {
   "property": "C03",
   "status": "proved",
   "theorems": [
    "C03_binary_15099_round_trip"
   ],
   "note": ""
  },
  {
   "property": "C04",
   "status": "proved",
   "theorems": [
    "C04_text_15099_round_trip"
   ],
   "note": ""
  },
  {
   "property": "C05",
   "status": "proved",
   "theorems": [
    "C05_binary_0_round_trip",
    "C05_text_0_round_trip"
   ],
   "note": ""
  },
  {
   "property": "C06",
   "status": "proved",
   "theorems": [
    "C06_binary_random_access",
    "C06_binary_any_file",
    "C06_text_random_access",
    "C06_text_any_file"
   ],
   "note": "Well-formed files: any history after a successful sequential read; arbitrary files: two histories never disagree."
  },
  {
   "property": "C07",
   "status": "proved",
   "theorems": [
    "C07_binary_skip_lands_where_read_lands",
    "C07_text_skip_lands_where_read_lands"
   ],
   "note": ""
  },
  {
   "property": "C08",
   "status": "proved",
   "theorems": [
    "C08_binary_sizes",
    "C08_text_sizes",
    "C08_size_by_type"
   ],
   "note": ""
  },
  {
   "property": "C09",
   "status": "proved",
   "theorems": [
    "C09_fortran_records"
   ],
   "note": ""
  },
  {
   "property": "C10",
   "status": "proved",
   "theorems": [
    "C10_text_labels",
    "C10_text_error_otherwise"
   ],
   "note": ""
  },
  {
   "property": "C11",
   "status": "proved",
   "theorems": [
    "C11_mode_from_name",
    "C11_binary_version",
    "C11_text_version",
    "C11_binary_version_written",
    "C11_text_version_written"
   ],
   "note": ""
  },
  {
   "property": "C12",
   "status": "proved",
   "theorems": [
    "C12_truncated_15200"
   ],
   "note": "Header intact; see C51 for files cut inside the header."
  },
  {
   "property": "C13",
   "status": "proved",
   "theorems": [
    "C13_factor",
    "C13_binary_stored",
    "C13_text_stored"
   ],
   "note": ""
  },
  {
   "property": "C14",
   "status": "proved",
   "theorems": [
    "C14_binary_write_order",
    "C14_text_write_order"
   ],
   "note": ""
  },
  {
   "property": "C15",
   "status": "partial",
   "theorems": [
    "C15_no_final_newline_refuted"
   ],
   "note": "Refuted: the statement is false of the code as modelled; the theorem gives the witness. After the last sector of such a file has been read, every later read stops with an error."
  },
  {
   "property": "C16",
   "status": "proved",
   "theorems": [
    "C16_remap_preserves_operator",
    "C16_remap_without_counterpart"
   ],
   "note": ""
  },
  {
   "property": "C17",
   "status": "proved",
   "theorems": [
    "C17_schedule_independent",
    "C17_writes_disjoint"
   ],
   "note": ""
  },
  {
   "property": "C18",
   "status": "proved",
   "theorems": [
    "C18_coverage_flags"
   ],
   "note": ""
  },
  {
   "property": "C19",
   "status": "proved",
   "theorems": [
    "C19_identity",
    "C19_forth_and_back"
   ],
   "note": ""
  },
  {
   "property": "C20",
   "status": "proved",
   "theorems": [
    "C20_identity"
   ],
   "note": ""
  },
  {
   "property": "C21",
   "status": "proved",
   "theorems": [
    "C21_composition"
   ],
   "note": ""
  },
  {
   "property": "C22",
   "status": "proved",
   "theorems": [
    "C22_symmetric",
    "C22_linear",
    "C22_total",
    "C22_elements"
   ],
   "note": ""
  },
  {
   "property": "C23",
   "status": "proved",
   "theorems": [
    "C23_upgrade_elements",
    "C23_selection",
    "C23_upgrade_exchange",
    "C23_tensor_exchange_ket",
    "C23_tensor_exchange_bra",
    "C23_charge"
   ],
   "note": ""
  },
  {
   "property": "C24",
   "status": "proved",
   "theorems": [
    "C24_tensor_elements",
    "C24_same_objects"
   ],
   "note": ""
  },
  {
   "property": "C25",
   "status": "proved",
   "theorems": [
    "C25_identity",
    "C25_timing",
    "C25_timing_off"
   ],
   "note": ""
  },
  {
   "property": "C26",
   "status": "proved",
   "theorems": [
    "C26_adjoint",
    "C26_selection"
   ],
   "note": ""
  },
  {
   "property": "C27",
   "status": "proved",
   "theorems": [
    "C27_sum",
    "C27_constant",
    "C27_symmetric",
    "C27_assert"
   ],
   "note": "Real arithmetic; the constant k_sqrt_2 is modelled as its decimal literal and shown to be sqrt 2 within 1e-15."
  },
  {
   "property": "C28",
   "status": "proved",
   "theorems": [
    "C28_product",
    "C28_constant"
   ],
   "note": "Equality up to the exact factor k_sqrt_2^2/2 caused by the rounded constant; the factor is 1 within 1e-16."
  },
  {
   "property": "C29",
   "status": "proved",
   "theorems": [
    "C29_virial",
    "C29_symmetric"
   ],
   "note": ""
  },
  {
   "property": "C30",
   "status": "partial",
   "theorems": [
    "C30_radial",
    "C30_radial_sqr",
    "C30_radial_sqr_upward",
    "C30_refuted"
   ],
   "note": "Refuted: the statement is false of the code as modelled; the theorem gives the witness. True for r (delta_L = -1, +1) and for r^2 with delta_L = 0, -2 (C30_radial, C30_radial_sqr); false for r^2 with delta_L = +2, where the band n-2 is skipped (C30_radial_sqr_upward says exactly which elements). Sectors in canonical order never ask for delta_L = +2."
  },
  {
   "property": "C31",
   "status": "partial",
   "theorems": [
    "C31_blocks",
    "C31_isovector",
    "C31_labels",
    "C31_diagonal",
    "C31_refuted"
   ],
   "note": "Refuted: the statement is false of the code as modelled; the theorem gives the witness. The generated operator is (ik)^2 = -k^2: its diagonal is -(1/2)(N+3/2) (C31_diagonal)."
  },
  {
   "property": "C32",
   "status": "proved",
   "theorems": [
    "C32_product",
    "C32_assert",
    "C32_associative"
   ],
   "note": "Associativity assumes that the intermediate sector lists contain every sector of the product (otherwise elements are dropped by request of the caller)."
  },
  {
   "property": "C33",
   "status": "proved",
   "theorems": [
    "C33_product",
    "C33_identity",
    "C33_symmetric",
    "C33_twice",
    "C33_scalar"
   ],
   "note": ""
  },
  {
   "property": "C34",
   "status": "proved",
   "theorems": [
    "C34_round_trip",
    "C34_assert"
   ],
   "note": ""
  },
  {
   "property": "C35",
   "status": "proved",
   "theorems": [
    "C35_multi",
    "C35_info",
    "C35_constant"
   ],
   "note": ""
  },
  {
   "property": "C36",
   "status": "partial",
   "theorems": [
    "C36_truncated_multi_refuted",
    "C36_always_accepted",
    "C36_truncated_single_refuted",
    "C36_bad_word",
    "C36_missing"
   ],
   "note": "Refuted: the statement is false of the code as modelled; the theorem gives the witness. Refuted: a shortened multi-file density is accepted and missing elements become rescaled copies of the previous one; single-file counts are never compared. C36_always_accepted shows it for every data content."
  },
  {
   "property": "C37",
   "status": "proved",
   "theorems": [
    "C37_observable"
   ],
   "note": ""
  },
  {
   "property": "C38",
   "status": "proved",
   "theorems": [
    "C38_terminates",
    "C38_asked",
    "C38_factorials",
    "C38_halves"
   ],
   "note": ""
  },
  {
   "property": "C39",
   "status": "proved",
   "theorems": [
    "C39_transparent"
   ],
   "note": ""
  },
  {
   "property": "C40",
   "status": "proved",
   "theorems": [
    "C40_selection"
   ],
   "note": ""
  },
  {
   "property": "C41",
   "status": "proved",
   "theorems": [
    "C41_round_trip",
    "C41_round_trip_T0",
    "C41_inverse",
    "C41_table"
   ],
   "note": ""
  },
  {
   "property": "C42",
   "status": "proved",
   "theorems": [
    "C42_file",
    "C42_places",
    "C42_interaction",
    "C42_both_orders"
   ],
   "note": ""
  },
  {
   "property": "C43",
   "status": "proved",
   "theorems": [
    "C43_coulomb",
    "C43_coulomb_T0",
    "C43_total",
    "C43_labels",
    "C43_negative"
   ],
   "note": ""
  },
  {
   "property": "C44",
   "status": "proved",
   "theorems": [
    "C44_target_is_combination",
    "C44_runs",
    "C44_input",
    "C44_mixed_files",
    "C44_operator_U",
    "C44_operator_V",
    "C44_operator_U_unknown",
    "C44_operator_V_unknown",
    "C44_xform",
    "C44_xform_unknown",
    "C44_order",
    "C44_coefficient_order"
   ],
   "note": "For any channels in terms of what they produce, and end to end for input files (elements identified by the orbitals of their states). Real arithmetic; sources with distinct names."
  },
  {
   "property": "C45",
   "status": "partial",
   "theorems": [
    "C45_unknown_source_reported_refuted",
    "C45_unknown_source_ignored"
   ],
   "note": "Refuted: the statement is false of the code as modelled; the theorem gives the witness. Refuted: unknown names are skipped; C45_unknown_source_ignored shows that this is so in every run."
  },
  {
   "property": "C46",
   "status": "partial",
   "theorems": [
    "C46_to_binary_partial",
    "C46_exact",
    "C46_to_text_partial",
    "C46_orders",
    "C46_output_indexing",
    "C46_no_counterpart",
    "C46_missing_sector_stops",
    "C46_version_0_refuted"
   ],
   "note": "Refuted: the statement is false of the code as modelled; the theorem gives the witness. Proved for every space and operator that the output format can describe (both media, exact values for single precision data, both sector orders); false for version 0 output of spaces with other orbitals than the oscillator ones, which the program does not check (C46_version_0_refuted)."
  },
  {
   "property": "C47",
   "status": "proved",
   "theorems": [
    "C47_triangular_orbitals",
    "C47_computed_weights",
    "C47_no_orbitals"
   ],
   "note": ""
  },
  {
   "property": "C48",
   "status": "proved",
   "theorems": [
    "C48_couplings",
    "C48_one_body_cut",
    "C48_one_body_cut_J1",
    "C48_three_body_cut",
    "C48_three_body_cut_J1",
    "C48_orbital_dimension"
   ],
   "note": ""
  },
  {
   "property": "C49",
   "status": "partial",
   "theorems": [
    "C49_filter_refuted",
    "C49_copy"
   ],
   "note": "Refuted: the statement is false of the code as modelled; the theorem gives the witness. Refuted: relative-filter never reads the filter name or cutoff and copies the stored triangle, which is proved."
  },
  {
   "property": "C50",
   "status": "proved",
   "theorems": [
    "C50_unchanged",
    "C50_equal_lengths",
    "C50_equal_lengths_element",
    "C50_overlaps",
    "C50_schedules",
    "C50_incompatible",
    "C50_nonpositive"
   ],
   "note": ""
  },
  {
   "property": "C51",
   "status": "partial",
   "theorems": [
    "C51_truncated_header_refuted"
   ],
   "note": "Refuted: the statement is false of the code as modelled; the theorem gives the witness. Reader uses never-assigned header variables."
  },
  {
   "property": "C52",
   "status": "partial",
   "theorems": [
    "C52_matrix_mode_refuted"
   ],
   "note": "Refuted: the statement is false of the code as modelled; the theorem gives the witness. No stream object is created for mode .mat."
  },
  {
   "property": "C53",
   "status": "proved",
   "theorems": [
    "C53_number_operator"
   ],
   "note": ""
  },
  {
   "property": "C54",
   "status": "proved",
   "theorems": [
    "C54_schedule",
    "C54_symmetric"
   ],
   "note": ""
  },
  {
   "property": "C55",
   "status": "proved",
   "theorems": [
    "C55_number",
    "C55_commutator"
   ],
   "note": ""
  },
  {
   "property": "C56",
   "status": "proved",
   "theorems": [
    "C56_oscillator",
    "C56_order_0",
    "C56_numerical"
   ],
   "note": ""
  },
  {
   "property": "C57",
   "status": "proved",
   "theorems": [
    "C57_identity",
    "C57_transform",
    "C57_numerical",
    "C57_scalar"
   ],
   "note": ""
  },
  {
   "property": "C58",
   "status": "partial",
   "theorems": [
    "C58_missing_lines",
    "C58_no_final_newline_refuted"
   ],
   "note": "Refuted: the statement is false of the code as modelled; the theorem gives the witness. Proved for files ending in a newline; refuted without it (the last row is reused)."
  },
  {
   "property": "C59",
   "status": "partial",
   "theorems": [
    "C59_single",
    "C59_no_final_newline_refuted",
    "C59_last_line_unused",
    "C59_orbitals"
   ],
   "note": "Refuted: the statement is false of the code as modelled; the theorem gives the witness. Proved for files ending in a newline; refuted without it (the last line is dropped)."
  },
  {
   "property": "C60",
   "status": "partial",
   "theorems": [
    "C60_other_space_refuted"
   ],
   "note": "Refuted: the statement is false of the code as modelled; the theorem gives the witness. Refuted: the operator's space is never compared with that of the densities."
  },
  {
   "property": "C61",
   "status": "partial",
   "theorems": [
    "C61_unknown_version_refuted",
    "C61_version_0",
    "C61_version_1"
   ],
   "note": "Refuted: the statement is false of the code as modelled; the theorem gives the witness. Refuted: unset variables are used."
  },
  {
   "property": "C62",
   "status": "partial",
   "theorems": [
    "C62_abort_refuted",
    "C62_no_abort",
    "C62_overflow_refuted"
   ],
   "note": "Refuted: the statement is false of the code as modelled; the theorem gives the witness. Refuted: GSL's factorial ends the process from 85 quanta on (C62_no_abort: never up to 84), and a product under a square root overflows at 36 quanta."
  },
  {
   "property": "C63",
   "status": "partial",
   "theorems": [
    "C63_ends_refuted",
    "C63_ends",
    "C63_ends_terminated"
   ],
   "note": "Refuted: the statement is false of the code as modelled; the theorem gives the witness. False of the code: when the last line has no newline and is the header of an empty block, std::getline leaves the line unchanged at end of file and the header is parsed for ever (C63_ends_refuted). Proved: with a final newline reading always ends, and so does every file with a terminating line."
  },
  {
   "property": "C64",
   "status": "partial",
   "theorems": [
    "C64_reported_refuted"
   ],
   "note": "Refuted: the statement is false of the code as modelled; the theorem gives the witness. False of the code: a failed extraction only ends the line; the following elements move up silently (C64_reported_refuted)."
  },
  {
   "property": "C65",
   "status": "proved",
   "theorems": [
    "C65_branching",
    "C65_lowering"
   ],
   "note": ""
  },
  {
   "property": "C66",
   "status": "partial",
   "theorems": [
    "C66_mass_initialised_refuted",
    "C66_without_mass_undefined"
   ],
   "note": "Refuted: the statement is false of the code as modelled; the theorem gives the witness. Refuted: RunParameters::A is never initialised; reading it is modelled as undefined behaviour."
  },
  {
   "property": "C67",
   "status": "partial",
   "theorems": [
    "C67_quantum_numbers_checked_refuted"
   ],
   "note": "Refuted: the statement is false of the code as modelled; the theorem gives the witness. Refuted: a rank-2 operator file is mixed into a scalar target."
  },
  {
   "property": "C68",
   "status": "partial",
   "theorems": [
    "C68_source_names_unique_refuted"
   ],
   "note": "Refuted: the statement is false of the code as modelled; the theorem gives the witness. Refuted: the later source replaces the earlier one."
  },
  {
   "property": "C69",
   "status": "proved",
   "theorems": [
    "C69_linear_combination",
    "C69_unknown_term",
    "C69_mismatched_term",
    "C69_redefinition"
   ],
   "note": ""
  },
  {
   "property": "C70",
   "status": "partial",
   "theorems": [
    "C70_self_reference_refused_refuted"
   ],
   "note": "Refuted: the statement is false of the code as modelled; the theorem gives the witness. Refuted: H = T + H is accepted and gives 2T."
  },
  {
   "property": "C71",
   "status": "partial",
   "theorems": [
    "C71_generation_ends_refuted",
    "C71_no_end_without_l_weight"
   ],
   "note": "Refuted: the statement is false of the code as modelled; the theorem gives the witness. Refuted: with b = 0 the loop over l never ends."
  },
  {
   "property": "C72",
   "status": "partial",
   "theorems": [
    "C72_same_text_refuted",
    "C72_element_refuted",
    "C72_same_lines",
    "C72_digits",
    "C72_zero",
    "C72_ties",
    "C72_special",
    "C72_exact_partial",
    "C72_reader",
    "C72_distinct_partial",
    "C72_unit_decade"
   ],
   "note": "Refuted: the statement is false of the code as modelled; the theorem gives the witness. False: 10+10ulp and 10+11ulp print alike; exact where the last digit is finer than the float spacing, e.g. between 1 and 10."
  },
  {
   "property": "C73",
   "status": "proved",
   "theorems": [
    "C73_file",
    "C73_interaction",
    "C73_untold"
   ],
   "note": "Proved: components after any file of valid lines branch to the told matrix elements."
  },
  {
   "property": "C74",
   "status": "partial",
   "theorems": [
    "C74_unreadable",
    "C74_absent",
    "C74_charge_refuted",
    "C74_parity_refuted"
   ],
   "note": "Refuted: the statement is false of the code as modelled; the theorem gives the witness. Partial: unreadable lines and absent labels are refused; refuted for Tz outside -1..1 (array index) and for parity-changing lines (sector lookup)."
  },
  {
   "property": "C75",
   "status": "partial",
   "theorems": [
    "C75_arguments",
    "C75_few",
    "C75_undefined",
    "C75_missing_refuted"
   ],
   "note": "Refuted: the statement is false of the code as modelled; the theorem gives the witness. Refuted: two or three arguments lead to undefined behaviour; zero or one are refused, four are accepted."
  },
  {
   "property": "C76",
   "status": "proved",
   "theorems": [
    "C76_high_J",
    "C76_parity",
    "C76_no_subspace"
   ],
   "note": "for any list of well-formed blocks before the bad one; a header line longer than nine words is not modelled"
  },
  {
   "property": "C77",
   "status": "proved",
   "theorems": [
    "C77_multi",
    "C77_class",
    "C77_single",
    "C77_index"
   ],
   "note": "for densities whose elements before the bad one are accepted"
  },
  {
   "property": "C78",
   "status": "proved",
   "theorems": [
    "C78_recursion",
    "C78_exchange",
    "C78_seeds",
    "C78_values"
   ],
   "note": ""
  },
  {
   "property": "C79",
   "status": "proved",
   "theorems": [
    "C79_binary_header",
    "C79_text_header",
    "C79_binary_15200",
    "C79_text"
   ],
   "note": ""
  },
  {
   "property": "C80",
   "status": "proved",
   "theorems": [
    "C80_binary_15200",
    "C80_binary_15099",
    "C80_binary_0",
    "C80_text_15200",
    "C80_text_15099",
    "C80_text_0",
    "C80_sector_index",
    "C80_matrix_mode_order"
   ],
   "note": ""
  },
  {
   "property": "C81",
   "status": "partial",
   "theorems": [
    "C81_restrictions_refuted"
   ],
   "note": "Refuted: the statement is false of the code as modelled; the theorem gives the witness. 15099 writes Tz0=1 and cannot read it back; version 0 writes any orbitals; 15200 accepts negative Tz0 and wrong orbital counts; the documented 28-byte version-0 header is refused."
  },
  {
   "property": "C82",
   "status": "proved",
   "theorems": [
    "C82_product",
    "C82_complete",
    "C82_refused",
    "C82_scalar",
    "C82_channel",
    "C82_channel_refused"
   ],
   "note": ""
  },
  {
   "property": "C83",
   "status": "partial",
   "theorems": [
    "C83_am",
    "C83_am_refused",
    "C83_am_square",
    "C83_am_square_refused",
    "C83_isospin",
    "C83_isospin_adjoint",
    "C83_isospin_commutator",
    "C83_isospin_refuted",
    "C83_isospin_missing_refuted",
    "C83_am_refuted",
    "C83_isospin_refused",
    "C83_angular_names",
    "C83_isospin_names",
    "C83_generated_am",
    "C83_generated_square",
    "C83_generated_isospin"
   ],
   "note": "Refuted: the statement is false of the code as modelled; the theorem gives the witness. True when the subspaces list their n alike; otherwise states are paired by index: t+ connects n=0 with n=1 and misses n=1 with n=1."
  },
  {
   "property": "C84",
   "status": "partial",
   "theorems": [
    "C84_solid_harmonic",
    "C84_generated_partial",
    "C84_identity",
    "C84_exists",
    "C84_normalisation_refuted",
    "C84_name_refuted",
    "C84_names",
    "C84_ladder",
    "C84_ladder_refused",
    "C84_kinematic_names",
    "C84_ladder_names",
    "C84_generated_ladder",
    "C84_orbital_file"
   ],
   "note": "Refuted: the statement is false of the code as modelled; the theorem gives the witness. The factor for Y is taken for the power, not the rank J0; correct when they agree. An operator named \"identity\" is the identity, one named like a kinematic operator is not normalised; the documented k, k.k are ik, ik.ik."
  },
  {
   "property": "C85",
   "status": "proved",
   "theorems": [
    "C85_written",
    "C85_input",
    "C85_input_refused",
    "C85_xform_scalar",
    "C85_transformed",
    "C85_transformed_refused"
   ],
   "note": ""
  },
  {
   "property": "C86",
   "status": "partial",
   "theorems": [
    "C86_sum",
    "C86_exists",
    "C86_quantum_numbers",
    "C86_spaces_refuted",
    "C86_self_refuted"
   ],
   "note": "Refuted: the statement is false of the code as modelled; the theorem gives the witness. Different spaces of equal block shapes are accepted; the combination may name itself."
  },
  {
   "property": "C87",
   "status": "partial",
   "theorems": [
    "C87_load",
    "C87_electric",
    "C87_electric_missing",
    "C87_electric_space",
    "C87_electric_unset",
    "C87_fermi",
    "C87_gamow_teller",
    "C87_rank_refuted",
    "C87_rank_blocks_refuted"
   ],
   "note": "Refuted: the statement is false of the code as modelled; the theorem gives the witness. The rank of the input file is not compared with the target: wrong rank in the output, or undefined behaviour when blocks are missing."
  },
  {
   "property": "C88",
   "status": "partial",
   "theorems": [
    "C88_dipole",
    "C88_spin",
    "C88_orbital_zero",
    "C88_orbital_refuted"
   ],
   "note": "Refuted: the statement is false of the code as modelled; the theorem gives the witness. Dl of rank 2 and above is identically 0 because 2 / (lambda + 1) is integer division."
  },
  {
   "property": "C89",
   "status": "proved",
   "theorems": [
    "C89_relcm",
    "C89_refused",
    "C89_cutoff"
   ],
   "note": ""
  },
  {
   "property": "C90",
   "status": "proved",
   "theorems": [
    "C90_two_body",
    "C90_missing"
   ],
   "note": ""
  },
  {
   "property": "C91",
   "status": "proved",
   "theorems": [
    "C91_jj",
    "C91_complete",
    "C91_missing"
   ],
   "note": ""
  },
  {
   "property": "C92",
   "status": "proved",
   "theorems": [
    "C92_transformation",
    "C92_rose"
   ],
   "note": ""
  },
  {
   "property": "C93",
   "status": "proved",
   "theorems": [
    "C93_identity"
   ],
   "note": ""
  },
  {
   "property": "C94",
   "status": "partial",
   "theorems": [
    "C94_dipole_elements",
    "C94_unit_vector",
    "C94_direction_up",
    "C94_direction_down",
    "C94_direction_square",
    "C94_dipole_refuted"
   ],
   "note": "Refuted: the statement is false of the code as modelled; the theorem gives the witness. In the branch that is stored (L' = L - 1) the code has sqrt(L/(2L+1)) where the unit vector has -sqrt(L/(2L-1)).  The refutation assumes the values of the recoupling factors for two spins 1/2 and for spin zero."
  },
  {
   "property": "C95",
   "status": "partial",
   "theorems": [
    "C95_momentum_is_coordinate",
    "C95_momentum_refuted"
   ],
   "note": "Refuted: the statement is false of the code as modelled; the theorem gives the witness. The sign argument of RadialCoordinateMatrix is left at its default +1 also for the momentum."
  },
  {
   "property": "C96",
   "status": "proved",
   "theorems": [
    "C96_orbital_elements",
    "C96_spin_elements",
    "C96_orbital_plus_spin",
    "C96_isovector_spin_values",
    "C96_isospin_elements",
    "C96_labels_refused"
   ],
   "note": "L + S = J and the values assume the identities of the recoupling factors (module am is not modelled)."
  },
  {
   "property": "C97",
   "status": "proved",
   "theorems": [
    "C97_su4_elements",
    "C97_su4_many_body"
   ],
   "note": "For the A-body formula a state enters by the values of the products of generators."
  },
  {
   "property": "C98",
   "status": "proved",
   "theorems": [
    "C98_quadrupole_elements",
    "C98_quadrupole_momentum"
   ],
   "note": "The order of the subspaces by L is that of module basis (not in the repository)."
  },
  {
   "property": "C99",
   "status": "partial",
   "theorems": [
    "C99_unit_stored",
    "C99_no_state",
    "C99_no_subspace",
    "C99_no_sector",
    "C99_labels_refuted",
    "C99_by_name",
    "C99_unknown_name",
    "C99_unknown_coordinate",
    "C99_missing_parameters"
   ],
   "note": "Refuted: the statement is false of the code as modelled; the theorem gives the witness. Labels of missing subspaces and of sectors that are not stored are undefined behaviour; missing states fail an assertion."
  },
  {
   "property": "C100",
   "status": "proved",
   "theorems": [
    "C100_natural_orbitals",
    "C100_lower_triangle"
   ],
   "note": "Whatever the density, only the lower triangle is used (second theorem).  What Eigen's solver and std::sort promise is assumed for the matrices and lists at hand."
  },
  {
   "property": "C101",
   "status": "proved",
   "theorems": [
    "C101_files",
    "C101_xform"
   ],
   "note": ""
  },
  {
   "property": "C102",
   "status": "partial",
   "theorems": [
    "C102_info_labels",
    "C102_info_labels_refuted"
   ],
   "note": "Refuted: the statement is false of the code as modelled; the theorem gives the witness. True if n counts from 0 and weights grow with n.  Otherwise the info file numbers natural orbitals by occupation while the transformation file labels them in the order of the weights."
  },
  {
   "property": "C103",
   "status": "partial",
   "theorems": [
    "C103_in_order",
    "C103_no_output",
    "C103_other_keywords",
    "C103_bad_line",
    "C103_no_density",
    "C103_undefined_refuted",
    "C103_late_indexing_refuted"
   ],
   "note": "Refuted: the statement is false of the code as modelled; the theorem gives the witness. Without a density a null pointer is used; unknown keywords are ignored; orbitals given after the densities are combined with a density for other orbitals."
  },
  {
   "property": "C104",
   "status": "partial",
   "theorems": [
    "C104_product",
    "C104_isometry",
    "C104_refused",
    "C104_type_refuted",
    "C104_rank_refuted"
   ],
   "note": "Refuted: the statement is false of the code as modelled; the theorem gives the witness. Both type tests look at the first file, so a second file of another type is accepted; files with a rank are accepted and lose their elements.  For two files of overlaps the product is right."
  },
  {
   "property": "C105",
   "status": "proved",
   "theorems": [
    "C105_product",
    "C105_refused",
    "C105_back"
   ],
   "note": "A transformation with J0 or g0 different from 0 ends at an assertion, not with the message."
  },
  {
   "property": "C106",
   "status": "proved",
   "theorems": [
    "C106_closed_form",
    "C106_origin",
    "C106_infinity",
    "C106_shape"
   ],
   "note": "Real arithmetic without overflow; tgamma is any function positive at l + 3/2."
  },
  {
   "property": "C107",
   "status": "proved",
   "theorems": [
    "C107_orthonormal",
    "C107_gamma_exists",
    "C107_gamma_unique"
   ],
   "note": "The values required of tgamma are those of the integral, which exist and are unique (second and third theorem)."
  },
  {
   "property": "C108",
   "status": "partial",
   "theorems": [
    "C108_first",
    "C108_value_0",
    "C108_value_1",
    "C108_value_2",
    "C108_orthogonal_refuted",
    "C108_overlap",
    "C108_norm"
   ],
   "note": "Refuted: the statement is false of the code as modelled; the theorem gives the witness. True for n = 0 and 1.  From n = 2 on the sign of the recurrence also multiplies its second term, so n = 2 contains a multiple of n = 0 and is not normalized."
  },
  {
   "property": "C109",
   "status": "proved",
   "theorems": [
    "C109_points",
    "C109_map",
    "C109_endpoints",
    "C109_endpoints_empty",
    "C109_integrand",
    "C109_ratio_one"
   ],
   "note": "The quadrature rule (spline::CubicIntegrate) is not modelled."
  },
  {
   "property": "C110",
   "status": "proved",
   "theorems": [
    "C110_r_up",
    "C110_r_down",
    "C110_k_up",
    "C110_k_down",
    "C110_r2_same",
    "C110_r2_up",
    "C110_r2_down",
    "C110_k2_same",
    "C110_k2_up",
    "C110_k2_down"
   ],
   "note": ""
  },
  {
   "property": "C111",
   "status": "partial",
   "theorems": [
    "C111_single",
    "C111_scalar_0",
    "C111_scalar_undefined",
    "C111_negative",
    "C111_scalar_negative",
    "C111_scalar_refuted"
   ],
   "note": "Refuted: the statement is false of the code as modelled; the theorem gives the witness. Arrays: true.  For a plain double and n > 0 the exchange reads an indeterminate value."
  },
  {
   "property": "C112",
   "status": "proved",
   "theorems": [
    "C112_elements",
    "C112_symmetric"
   ],
   "note": "The second recoupling factor is used for L' = L +- 2 without a test; hypothesis diagonal2 says that it vanishes there.  Recoupling factors are parameters."
  },
  {
   "property": "C113",
   "status": "proved",
   "theorems": [
    "C113_yukawa",
    "C113_tensor",
    "C113_contact"
   ],
   "note": "The quadrature rule itself is not modelled."
  },
  {
   "property": "C114",
   "status": "proved",
   "theorems": [
    "C114_leading"
   ],
   "note": ""
  },
  {
   "property": "C115",
   "status": "proved",
   "theorems": [
    "C115_regulator",
    "C115_labels_gt",
    "C115_labels_m1",
    "C115_negative",
    "C115_steps",
    "C115_no_points",
    "C115_not_a_number"
   ],
   "note": ""
  },
  {
   "property": "C116",
   "status": "proved",
   "theorems": [
    "C116_elements"
   ],
   "note": "Recoupling factors and reduced elements of spherical harmonics are parameters."
  },
  {
   "property": "C117",
   "status": "partial",
   "theorems": [
    "C117_unknown",
    "C117_unreadable",
    "C117_operator",
    "C117_steps_refuted"
   ],
   "note": "Refuted: the statement is false of the code as modelled; the theorem gives the witness. Unknown names and unreadable parameters are refused; the number of steps is read but not passed on."
  },
  {
   "property": "C118",
   "status": "partial",
   "theorems": [
    "C118_pion_partial",
    "C118_m1",
    "C118_contact",
    "C118_units_refuted"
   ],
   "note": "Refuted: the statement is false of the code as modelled; the theorem gives the witness. True for pion-range terms and M1; the integrand of the contact term lacks a factor r, so that the term scales with the inverse square of the length."
  },
  {
   "property": "C119",
   "status": "partial",
   "theorems": [
    "C119_waves_refuted",
    "C119_different_partial"
   ],
   "note": "Refuted: the statement is false of the code as modelled; the theorem gives the witness. Elements with different L vanish; those with L = L' > 0 do not."
  },
  {
   "property": "C120",
   "status": "partial",
   "theorems": [
    "C120_lines",
    "C120_control",
    "C120_other_lines",
    "C120_unknown_mode",
    "C120_unknown_mode_refuted",
    "C120_negative",
    "C120_negative_refuted"
   ],
   "note": "Refuted: the statement is false of the code as modelled; the theorem gives the witness. Characterised completely; refuted for unknown modes of operator targets (accepted, undefined) and negative orders (accepted)."
  },
  {
   "property": "C121",
   "status": "proved",
   "theorems": [
    "C121_kinematic",
    "C121_solid_harmonic",
    "C121_angular_momentum",
    "C121_squares",
    "C121_isospin",
    "C121_radial"
   ],
   "note": "Proved for orbitals with j = l +- 1/2 and n >= 0; angular momenta and isospin for spaces whose subspaces list n in the same order."
  },
  {
   "property": "C122",
   "status": "proved",
   "theorems": [
    "C122_overlaps",
    "C122_accepted"
   ],
   "note": "Proved for all orbital files."
  },
  {
   "property": "C123",
   "status": "partial",
   "theorems": [
    "C123_files",
    "C123_needs",
    "C123_no_orbitals",
    "C123_overwrite_refuted"
   ],
   "note": "Refuted: the statement is false of the code as modelled; the theorem gives the witness. Proved if no output is an orbital file of a target; refuted otherwise."
  },
  {
   "property": "C124",
   "status": "partial",
   "theorems": [
    "C124_lines",
    "C124_missing",
    "C124_missing_refuted",
    "C124_other_files",
    "C124_arguments"
   ],
   "note": "Refuted: the statement is false of the code as modelled; the theorem gives the witness. Proved if the bra space has all subspaces of the ket space; refuted otherwise (index out of range)."
  },
  {
   "property": "C125",
   "status": "partial",
   "theorems": [
    "C125_values",
    "C125_absent",
    "C125_index",
    "C125_index_refuted",
    "C125_width",
    "C125_width_refuted",
    "C125_other_files",
    "C125_basis"
   ],
   "note": "Refuted: the statement is false of the code as modelled; the theorem gives the witness. Proved if the subspace has the same index and dimension in both spaces; refuted otherwise."
  },
  {
   "property": "C126",
   "status": "proved",
   "theorems": [
    "C126_read",
    "C126_only",
    "C126_one_meaning",
    "C126_refused",
    "C126_misplaced"
   ],
   "note": "Proved for all control files, as lists of lines of words."
  },
  {
   "property": "C127",
   "status": "partial",
   "theorems": [
    "C127_no_file_refuted",
    "C127_defined_twice",
    "C127_defined_twice_refuted",
    "C127_blank",
    "C127_blank_refuted"
   ],
   "note": "Refuted: the statement is false of the code as modelled; the theorem gives the witness. Refuted: a transformation without a file and a second definition of a transformation are accepted, and a blank after the name of a builtin operator ends the program."
  },
  {
   "property": "C128",
   "status": "partial",
   "theorems": [
    "C128_target",
    "C128_refused",
    "C128_no_indexing",
    "C128_mixed",
    "C128_mixed_refuted"
   ],
   "note": "Refuted: the statement is false of the code as modelled; the theorem gives the witness. Proved as the code does it; refuted for a file after an oscillator cutoff: the orbitals stay those of the oscillator."
  },
  {
   "property": "C129",
   "status": "partial",
   "theorems": [
    "C129_operators",
    "C129_names",
    "C129_kept",
    "C129_xforms",
    "C129_xforms_only",
    "C129_input_refused",
    "C129_builtin_refused",
    "C129_two_spaces",
    "C129_two_spaces_refuted",
    "C129_no_terms",
    "C129_no_terms_refuted"
   ],
   "note": "Refuted: the statement is false of the code as modelled; the theorem gives the witness. Proved for channels that are defined as C129_operators asks; refuted for files between different spaces and for combinations without terms."
  },
  {
   "property": "C130",
   "status": "proved",
   "theorems": [
    "C130_program",
    "C130_runs"
   ],
   "note": "Proved for all kinds of sources that are usable (files that fit the target, masses in range, operators that fit, transformations with distinct orbitals)."
  },
  {
   "property": "C131",
   "status": "partial",
   "theorems": [
    "C131_line",
    "C131_refused",
    "C131_one_meaning",
    "C131_mode",
    "C131_mode_refuted",
    "C131_fraction_refuted",
    "C131_blank",
    "C131_blank_densities"
   ],
   "note": "Refuted: the statement is false of the code as modelled; the theorem gives the witness. Theorems: a line is carried out iff it is a statement that can be performed, all others end the program. Refuted: misspelt append truncates, fractions of twice an angular momentum are dropped."
  },
  {
   "property": "C132",
   "status": "partial",
   "theorems": [
    "C132_single",
    "C132_multi",
    "C132_single_agrees",
    "C132_single_other",
    "C132_multi_agrees",
    "C132_single_version",
    "C132_multi_version",
    "C132_parity_refuted",
    "C132_short_refuted",
    "C132_number_refuted",
    "C132_no_newline",
    "C132_no_newline_refuted"
   ],
   "note": "Refuted: the statement is false of the code as modelled; the theorem gives the witness. Theorems: reading of all three versions, agreement of accepted files with the statement and the space, refusal of others. Refuted: short header lines of version 1520 are undefined, a word for the number of the state counts as 0, parities are not in versions 1405 and 1500."
  },
  {
   "property": "C133",
   "status": "proved",
   "theorems": [
    "C133_report"
   ],
   "note": "Program theorem from control file and files to sections and values of the report."
  },
  {
   "property": "C134",
   "status": "partial",
   "theorems": [
    "C134_before_orbitals",
    "C134_reindexed_refuted"
   ],
   "note": "Refuted: the statement is false of the code as modelled; the theorem gives the witness. Refuted: orbitals set after the densities change the sum without any message. Densities before the orbitals are refused by an assertion."
  },
  {
   "property": "C135",
   "status": "partial",
   "theorems": [
    "C135_no_output",
    "C135_no_output_refuted"
   ],
   "note": "Refuted: the statement is false of the code as modelled; the theorem gives the witness. Refuted: without output file the open mode is uninitialised."
  },
  {
   "property": "C136",
   "status": "partial",
   "theorems": [
    "C136_read",
    "C136_only",
    "C136_one_meaning",
    "C136_refused",
    "C136_misplaced",
    "C136_documented_partial",
    "C136_documented_refuted",
    "C136_momentum",
    "C136_solid",
    "C136_solid_refuted",
    "C136_blank_refuted",
    "C136_xform_refuted"
   ],
   "note": "Refuted: the statement is false of the code as modelled; the theorem gives the witness. Proved that control files are read exactly as described by xsays and well_placed, with one meaning per line; documented lines are accepted except k, k.k and solid harmonics (C136_documented_partial). Refuted: kinematic k and k.k are unknown (the code has ik, ik.ik); solid-harmonic needs a rank that the documentation does not mention and takes a numeric file name for it; a trailing blank in place of an optional argument ends the program; of two transformations of one name the first counts."
  },
  {
   "property": "C137",
   "status": "proved",
   "theorems": [
    "C137_program",
    "C137_only"
   ],
   "note": "Proved for all control files whose channels define operators (xstage); conversely a run that ends has written exactly the targets."
  },
  {
   "property": "C138",
   "status": "partial",
   "theorems": [
    "C138_lacking",
    "C138_no_operator",
    "C138_xform",
    "C138_no_terms_refuted",
    "C138_no_basis_refuted"
   ],
   "note": "Refuted: the statement is false of the code as modelled; the theorem gives the witness. Proved for repeated names and missing files, operators and transformations. Refuted: a linear combination without terms is undefined when written, and without set-basis the targets are written without elements."
  },
  {
   "property": "C139",
   "status": "partial",
   "theorems": [
    "C139_read",
    "C139_only",
    "C139_one_meaning",
    "C139_refused",
    "C139_documented",
    "C139_hash_refuted",
    "C139_twice_refuted"
   ],
   "note": "Refuted: the statement is false of the code as modelled; the theorem gives the witness. control file of ew-gen: statements, files, documented format; refuted: comment needs a blank after its hash, first source and last scale factor count"
  },
  {
   "property": "C140",
   "status": "proved",
   "theorems": [
    "C140_program",
    "C140_only",
    "C140_unused"
   ],
   "note": "program of ew-gen from control file to files written, converse, numerical case"
  },
  {
   "property": "C141",
   "status": "partial",
   "theorems": [
    "C141_lacking",
    "C141_elsewhere",
    "C141_no_indexing",
    "C141_no_scale",
    "C141_no_scale_refuted"
   ],
   "note": "Refuted: the statement is false of the code as modelled; the theorem gives the witness. failures of ew-gen: missing source, other orbitals, no orbitals; refuted: no scale factor is undefined"
  },
  {
   "property": "C142",
   "status": "proved",
   "theorems": [
    "C142_input",
    "C142_refused",
    "C142_one_meaning"
   ],
   "note": "Input as words (a word is extracted whole)."
  },
  {
   "property": "C143",
   "status": "proved",
   "theorems": [
    "C143_only",
    "C143_source",
    "C143_impossible"
   ],
   "note": "For any behaviour of module basis."
  },
  {
   "property": "C144",
   "status": "proved",
   "theorems": [
    "C144_h2",
    "C144_h2_relcm",
    "C144_relcm",
    "C144_lsjt",
    "C144_lsjt_relcm",
    "C144_jjjt",
    "C144_jjjt_relcm"
   ],
   "note": "Hypotheses on module basis in MosSpec.v; the writers are not part of it."
  },
  {
   "property": "C145",
   "status": "partial",
   "theorems": [
    "C145_unwritten_refuted",
    "C145_format",
    "C145_negative",
    "C145_too_small_refuted"
   ],
   "note": "Refuted: the statement is false of the code as modelled; the theorem gives the witness. Refuted in part, with counterexamples."
  },
  {
   "property": "C146",
   "status": "proved",
   "theorems": [
    "C146_input",
    "C146_refused"
   ],
   "note": ""
  },
  {
   "property": "C147",
   "status": "proved",
   "theorems": [
    "C147_made",
    "C147_only",
    "C147_unknown",
    "C147_interaction",
    "C147_refused",
    "C147_species"
   ],
   "note": "Coefficients, Gamma function, quadrature and the elements of 1/r are parameters with the properties stated (`gamma_fn`, `quad_ok`, `one_spin`, `diagonal2`); Daejeon16 and the identity operator are outside of the code and parameters."
  },
  {
   "property": "C148",
   "status": "partial",
   "theorems": [
    "C148_total_refuted",
    "C148_neutrons_refuted",
    "C148_undefined_refuted"
   ],
   "note": "Refuted: the statement is false of the code as modelled; the theorem gives the witness. Refuted, with counterexamples in the space of no quanta."
  },
  {
   "property": "C149",
   "status": "proved",
   "theorems": [
    "C149_input",
    "C149_input_refused",
    "C149_made",
    "C149_only",
    "C149_refused"
   ],
   "note": "Same hypotheses as the operators of C111-C119."
  },
  {
   "property": "C150",
   "status": "proved",
   "theorems": [
    "C150_input",
    "C150_input_refused",
    "C150_made",
    "C150_equal",
    "C150_unchanged",
    "C150_only",
    "C150_refused",
    "C150_ratio"
   ],
   "note": "Quadrature of the overlaps is a parameter; the target has the subspaces in the order of the source (`in_order`, as in the basis library)."
  },
  {
   "property": "C151",
   "status": "proved",
   "theorems": [
    "C151_input",
    "C151_input_refused",
    "C151_isoscalar",
    "C151_species",
    "C151_only",
    "C151_refused"
   ],
   "note": "Files are modelled as lines of words; the interaction is symmetric and the blocks give all elements of the upper triangles."
  },
  {
   "property": "C152",
   "status": "proved",
   "theorems": [
    "C152_jpv",
    "C152_species",
    "C152_xform",
    "C152_scalar",
    "C152_gen",
    "C152_unique",
    "C152_own"
   ],
   "note": "relative-gen stores the upper triangle, and moshinsky completes it to a hermitian operator: the theorem (C152_gen) is about that completion, which exists, is unique between the states of the space (C152_unique), and is the operator itself for scalar operators (C152_scalar) and for orbital-am, spin-am, quadrupole, LENPIC-LOGT and LENPIC-N2LOGT (C152_own). For dipole the stored triangle itself is not that of the dipole operator (see the refutation of its direction)."
  },
  {
   "property": "C153",
   "status": "proved",
   "theorems": [
    "C153_one",
    "C153_usage",
    "C153_more"
   ],
   "note": "C153_more states the behaviour; it contradicts the usage message, which the property takes as its claim."
  },
  {
   "property": "C154",
   "status": "proved",
   "theorems": [
    "C154_mode",
    "C154_usage",
    "C154_nothing",
    "C154_shown",
    "C154_refused",
    "C154_known",
    "C154_missing",
    "C154_unknown",
    "C154_mode_alone"
   ],
   "note": ""
  },
  {
   "property": "C155",
   "status": "proved",
   "theorems": [
    "C155_opened",
    "C155_verify",
    "C155_holds",
    "C155_truncated"
   ],
   "note": ""
  },
  {
   "property": "C156",
   "status": "proved",
   "theorems": [
    "C156_matrices",
    "C156_written"
   ],
   "note": ""
  },
  {
   "property": "C157",
   "status": "partial",
   "theorems": [
    "C157_longer_refuted",
    "C157_altered_refuted"
   ],
   "note": "Refuted: the statement is false of the code as modelled; the theorem gives the witness. Refuted as stated: a file with trailing bytes and a file with an altered element both pass."
  },
  {
   "property": "C158",
   "status": "proved",
   "theorems": [
    "C158_table",
    "C158_options",
    "C158_undefined",
    "C158_symmetric",
    "C158_range"
   ],
   "note": "The tables are read from the Fortran source by a script into DjData.v (integers in units of 10^-15 MeV). Rounding to single precision is any function that keeps zero."
  },
  {
   "property": "C159",
   "status": "proved",
   "theorems": [
    "C159_spin",
    "C159_stored",
    "C159_refuses",
    "C159_program",
    "C159_program_refused"
   ],
   "note": "The label Nmax of a subspace is a parameter, with the hypothesis (labels_Nmax) that the subspace has (Nmax-L)/2+1 states."
  },
  {
   "property": "C160",
   "status": "proved",
   "theorems": [
    "C160_two_body"
   ],
   "note": "As C152: moshinsky reads the operator that was written."
  },
  {
   "property": "C161",
   "status": "proved",
   "theorems": [
    "C161_made"
   ],
   "note": ""
  },
  {
   "property": "C162",
   "status": "proved",
   "theorems": [
    "C162_only",
    "C162_missing",
    "C162_unreadable"
   ],
   "note": ""
  },
  {
   "property": "C163",
   "status": "proved",
   "theorems": [
    "C163_made",
    "C163_ignored",
    "C163_only",
    "C163_refused",
    "C163_missing"
   ],
   "note": ""
  },
  {
   "property": "C164",
   "status": "proved",
   "theorems": [
    "C164_pn",
    "C164_filter"
   ],
   "note": ""
  },
  {
   "property": "C165",
   "status": "proved",
   "theorems": [
    "C165_one_body_cut",
    "C165_two_body_cut",
    "C165_nested",
    "C165_table",
    "C165_complete"
   ],
   "note": ""
  },
  {
   "property": "C166",
   "status": "partial",
   "theorems": [
    "C166_identical",
    "C166_identical_sum",
    "C166_even",
    "C166_proton_neutron",
    "C166_identical_refuted",
    "C166_proton_neutron_refuted"
   ],
   "note": "Refuted: the statement is false of the code as modelled; the theorem gives the witness. False: pairs in one orbital with odd J are counted (C166_identical_refuted), and a pair of different orbitals is counted once although a proton and a neutron have two states (C166_proton_neutron_refuted). The exact differences are proved."
  },
  {
   "property": "C167",
   "status": "proved",
   "theorems": [
    "C167_pairs",
    "C167_surplus"
   ],
   "note": ""
  },
  {
   "property": "C168",
   "status": "partial",
   "theorems": [
    "C168_triples",
    "C168_states",
    "C168_bound",
    "C168_J1_bound_refuted"
   ],
   "note": "Refuted: the statement is false of the code as modelled; the theorem gives the witness. The bound holds in total (C168_bound) but not for each J1 (C168_J1_bound_refuted: N=4, J1=6, J=11/2)."
  },
  {
   "property": "C169",
   "status": "partial",
   "theorems": [
    "C169_elements",
    "C169_lengths",
    "C169_twice",
    "C169_refusals",
    "C169_numbers_refuted"
   ],
   "note": "Refuted: the statement is false of the code as modelled; the theorem gives the witness. All of the statement except that numbers stay numbers: a ratio of zero is accepted (C169_numbers_refuted). Rounding of the factor to float is a parameter; C169_lengths and C169_twice assume it exact. The program does not compile with the present obme_io.h, see RscModel.v."
  },
  {
   "property": "C170",
   "status": "proved",
   "theorems": [
    "C170_states",
    "C170_states_order",
    "C170_states_once",
    "C170_lines",
    "C170_lines_order",
    "C170_lines_once"
   ],
   "note": "The enumeration of states is the one quoted in the program (its header file is no longer in the repository)."
  },
  {
   "property": "C171",
   "status": "proved",
   "theorems": [
    "C171_blocks",
    "C171_rows",
    "C171_twice"
   ],
   "note": "Sectors are a parameter; orbital spaces by Nmax as documented for module basis."
  }
 ]
}