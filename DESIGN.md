# Formal model of nd-nuclear-theory/shell: design

Source: `/repo` (C++), read as text.  Model and proofs: `/verif/rocq/theories`, Rocq/Coq 8.16.1, logical name `Verif`.
Properties: `properties.jsonl`; status and theorem names: `MANIFEST.json`; tests of the theorems against wrong programs: `seeded/LOG.jsonl`.

## Modelling conventions

* Every definition cites the C++ file and lines it models.  Simplifications are stated in the comment.
* Outcomes of a C++ call are explicit: `Ok a`, `Exit` (`std::exit`/`StreamCheck`/`ParsingCheck`/error message
  followed by exit, uncaught exceptions), `AssertFail` (a failing `assert`; the repository does not define `NDEBUG`), `UB`
  (undefined behaviour or use of uninitialised data).
* Numbers on disk: 32- and 64-bit little-endian two's complement words, explicit wrap-around.
  Floating-point values in files are an arbitrary type with arbitrary conversion functions to and from 32-bit words
  (`static_cast<float>`, `static_cast<double>`): theorems are quantified over these functions.
* Linear algebra and oscillator formulas are over Coq's real numbers.  Rounding is not modelled.
* Absent submodules (`libraries/am`, `basis`, `mcutils`, `fmt`, `spline`) are represented by explicit
  parameters or by small stand-ins whose comments say what is assumed.  The theorems quantify over the parameters.
* Each area has a model file (`*Model.v`, definitions with citations), a specification (`*Spec.v`, vocabulary of the statements,
  independent of the model's control flow), proofs (`*Proof.v`, `*Final.v`) and a properties file (`*Props.v`: the statements, each
  closed with `exact`, concrete cases that meet the hypotheses, and `Print Assumptions`).
* False properties are kept as stated in `properties.jsonl`; the theorem `Cnn_..._refuted` gives the witness and the status in the manifest is
  `partial`.  What does hold is proved beside it where there is such a statement.

## Files

| Coq files | C++ | Properties |
|---|---|---|
| `Base.v`, `BaseLemmas.v`, `RMat.v` | helpers: outcomes, byte encodings, lists; finite sums and matrices over R | - |
| `H2*.v`, `ExEnv.v`, `ExH2.v` | `libraries/tbme/h2_io.cpp`, `h2_io_v0.cpp`, `h2_io_v15099.cpp`, `h2_io_v15200.cpp`, `h2_io.h` | C01-C15, C51, C52, C79-C81 |
| `Map*.v` | `libraries/tbme/tbme_mapping.cpp` | C16-C19 |
| `Xform*.v`, `ExXform.v` | `libraries/tbme/tbme_xform.cpp` | C20-C22 |
| `Sep*.v`, `ExSep.v` | `libraries/tbme/tbme_separable.cpp` | C23-C25, C53, C54 |
| `Osc*.v` | `libraries/analytic/radial_oscillator_me.h`, `libraries/relative/relative_me.cpp` (coordinate and kinetic operators) | C26-C31, C55 |
| `Block*.v` | `libraries/obme/radial.cpp` | C32, C33, C56, C57 |
| `Obio*.v` | `libraries/obme/obme_io.cpp`, `libraries/density/obdme_io.cpp` | C34-C37, C58-C61, C77 |
| `Mosh*.v` | `libraries/moshinsky/moshinsky_bracket.cpp` | C38-C40, C62, C78 |
| `Jpv*.v` | `libraries/relative/jpv_io.cpp` | C42, C63, C64, C76 |
| `Iso*.v` | `libraries/moshinsky/moshinsky_xform.cpp` (isospin branching), `libraries/relative/relative_me.cpp` (Coulomb) | C41, C43, C65 |
| `Mix*.v` | `programs/h2utils/h2mixer.cpp` (sources, targets, channels) | C44, C45, C66-C70 |
| `Conv*.v` | `programs/h2utils/h2conv.cpp` | C46 |
| `Count*.v` | `programs/obutils/orbital-gen.cpp`, `programs/statecount` | C47, C48, C71 |
| `Relx*.v` | `programs/relutils/relative-filter.cpp`, `libraries/relative/relative_xform.cpp` | C49, C50 |
| `Text*.v` | text form of floating-point matrix elements (`libraries/tbme/h2_io_v*.cpp`, `fmt` format `16.7e`) | C72 |
| `Pn*.v` | `libraries/relative/pn_io.cpp`, arguments of `programs/relutils/pn2rel.cpp` | C73-C75 |
| `Obm*.v` | `libraries/obme/obme.cpp`; channels and targets of `programs/obutils/obmixer.cpp`; targets of `programs/obutils/ew-gen.cpp` | C82-C88 |
| `Trf*.v` | `libraries/moshinsky/moshinsky_xform.cpp:18-788`, order of steps in `programs/relutils/moshinsky.cpp` | C89-C93 |
| `Rme*.v` | `libraries/relative/relative_me.cpp:330-966`, operator names of `programs/relutils/relative-gen.cpp` | C94-C99 |
| `Nat*.v` | `programs/obutils/natorb-gen.cpp`, `radial-compose.cpp`, `radial-xform.cpp` | C100-C105 |
| `Wf*.v` | `libraries/quadrature/oscillator_wf.h`, `mesh.h`, integrand of `libraries/relative/relative_xform.cpp:48-86`; the elements of `Osc*.v` as integrals | C106-C111 |
| `Len*.v` | `libraries/relative/lenpic_constants.h`, `lenpic_relative_me.cpp`, `lenpic_relcm_me.cpp`; their use in `programs/relutils/relative-gen.cpp` and `relcm-gen.cpp` | C112-C119 |
| `Rg*.v` | `programs/obutils/radial-gen.cpp`, `programs/radialutils/radial-extract.cpp`, `radial-plot.cpp` | C120-C125 |
| `Hm*.v` | `programs/h2utils/h2mixer.cpp`: control file, target indexing, transformations, one-body channels, the program as a whole (two-body channels in `Mix*.v`) | C126-C130 |
| `Obs*.v` | `programs/obutils/obscalc-ob.cpp` and the density files of `libraries/density/obdme_io.cpp` with their headers (storage and sum in `Obio*.v`) | C131-C135 |
| `Stmt*.v`, `Obx*.v` | `programs/obutils/obmixer.cpp`: control file, transformations, the program as a whole (channels in `Obm*.v`) | C136-C138 |
| `Ewg*.v` | `programs/obutils/ew-gen.cpp`: control file, the program as a whole (targets in `Obm*.v`) | C139-C141 |
| `Mos*.v` | `programs/relutils/moshinsky.cpp`: input, choice of the steps, the program as a whole (steps in `Trf*.v`, `Iso*.v`) | C142-C145 |
| `Rgn*.v` | `programs/relutils/relative-gen.cpp`, `relcm-gen.cpp`, `relative-xform.cpp`, `jpv2rel.cpp`, `jpvstat.cpp` as whole programs, and followed by moshinsky (operators in `Rme*.v`, `Osc*.v`, `Iso*.v`, `Len*.v`, `Relx*.v`, `Jpv*.v`) | C146-C153 |
| `Stat*.v` | `programs/h2utils/h2stat.cpp` as a whole program (files in `H2*.v`, `Conv*.v`) | C154-C157 |
| `Dj*.v` | `contrib/Daejeon16/Daejeon16_wrapper.cpp` and the function `V_Daejeon16` of `Daejeon16_public_v2.f90`, with its 20 tables (`DjData.v`, generated from the Fortran source by a script) | C158-C160 |
| `Pg*.v` | `programs/relutils/pn2rel.cpp`, `programs/relutils/relative-filter.cpp`, as whole programs | C161-C164 |
| `Sc*.v` | `programs/statecount/statecount.cpp`: two-body counts, counts by angular momentum, two-body table (three-body counts in `Count*.v`) | C165-C168 |
| `Rsc*.v` | `programs/radialutils/radial-scale.cpp`, `libraries/moshinsky/moshinsky_bracket_table.cpp`, `programs/h2utils/make-radial-permutation.cpp` (all three switched off in the makefiles) | C169-C171 |

## How each property is proved

* C01-C05: binary file = list of bytes, text file = list of token lines; induction over header fields, over the sector list and over the
  element loop.  The basis library is an environment of functions (`env`).
* C06, C07: generic random-access machine with position cache, invariant "cache entry i = true position of sector i";
  instantiated with read/skip of each format and mode.
* C08, C09: induction over the sector list grouped by species.  C10: induction over the element loop on arbitrary lines.
* C11: case analysis over strings/integers.  C12: arithmetic of the short read.  C13, C14: invariants of write histories.
* C15, C51, C52: refuted by concrete files.
* C16-C19: label lookups as first-index searches; permutation invariance of disjoint updates.
* C20-C22: finite sums over R; reindexing of antisymmetrised pair sums.
* C23-C25, C53, C54: ring identities under case analysis of orbital coincidences.
* C26-C31, C55: real arithmetic with square roots over all branches; bands of the sparse matrices.
* C32, C33, C56, C57: block-matrix algebra, finite sums, any order of the parallel loop.
* C34-C37, C58-C61: list induction over lines.
* C38-C40, C62: well-founded recursion on 2(n1+n2)+[n1=0]; memo invariant.
* C41, C43, C65: real arithmetic with Clebsch-Gordan tables.  C42, C63, C64: invariant of the triangular walk.
* C44, C69: fold over an associative map; C45, C66-C68, C70: refuted by concrete runs.  C46: list lookup by labels over the stream theorems.
* C47, C48, C71: enumeration completeness; counting lemma on intervals.  C49, C50: pointwise.
* C72: integer arithmetic on mantissas; refuted by two floats with the same eight digits.
* C73: the table is that of jpv_io.cpp, so the proof reuses C41's; C74, C75: case analysis of the line and of the arguments.
* C76: the reading of the blocks before is that of C42, then case analysis of the header.  C77: the elements before are stored as in C35 and C59, then case analysis of the look-ups.
* C78: the model's six terms rewritten as elements of r^2 and r.R by real arithmetic; factorial sums evaluated.
* C82-C88: block loops as in C32 with the recoupling factor; identity blocks by index and the condition under which index means n; integer division of small by large.
* C89-C92: each step is a loop over sectors that fills blocks; the sums over stored sectors become sums over all states because the spaces list every state once.  C93: the sum over states allowed by antisymmetry is half the difference of the full sum and the exchanged one.
* C94-C98: one lemma for the loop over the sectors of a component, then each block is compared with the reduced element; C94, C95 refuted in spaces of two subspaces.  C97: induction on A.
* C99: look-ups in spaces with distinct labels.
* C106-C111: Laguerre polynomials by coefficients, three-term recurrence and ladder identities; moments by partial integration; orthogonality from the moments; substitution on the half line; integrals are limits of Riemann integrals over [e, 1/e], with existence of the gamma values proved.
* C112-C119: the loop over sectors once for any element function; integrands on the mesh compared with products of oscillator functions; symmetry by exchanging bra and ket.  C117-C119 refuted with integrals of oscillator functions known in closed form.
* C120-C125: control lines as an inductive relation, equivalent to the parser; blocks from the lemmas of C66-C75; the program by induction on the targets with a frame condition on orbital files.
* C126-C130: control lines as an inductive relation; what a list of statements means is defined by last, first and sections of the list, and the reader keeps that meaning line by line.  One-body channels by induction on the channels with the lemmas of C82-C88; transformed sources by the elements of C22; the program by the run theorem of C44.

## What is modelled, assumed and left out

* H2 streams.  `mcutils::ReadBinary`/`VerifyBinary` are stand-ins: a short read leaves the variable as it was and sets the failure flag, and
  `VerifyBinary` stops on a different value.  The header readers of text mode share one `line` variable; the model keeps the stale line
  after the end of the file.  Orbital parsing and printing, the two-body basis and the sector list are parameters of the environment, with the
  properties used listed in `env_ok` and `indexing_ok`.  Mode `.mat` (Eigen matrix output) is modelled only up to which calls are made.
  `fmt` printing and `>>` of floating-point numbers are the functions `fmt_f`, `fmt_d`, `scan_f`.  A text word is either an integer or a
  number; widths and columns are not modelled.
* Basis mapping, transformations, separable operators.  `MatrixElementLJPN` and the Racah factors are parameters; `OrbitalStatePN::operator==`
  compares species and index; doubles are reals.
* Oscillator elements.  Integers are unbounded; the literal `k_sqrt_2` is kept as the decimal in the source; not-a-number results are a
  distinct outcome.
* Radial blocks.  Splines and quadrature are parameters; parallel loops are proved independent of their order where they write.
  Equality of orbital spaces is equality of the lists of orbitals.
* One-body files.  `OrbitalSpaceLJPN` is the sorted list of labels; `GetLine`/`ParsingCheck` behave as in the mcutils documentation; the
  selection rule and the 3j symbol are parameters.
* Moshinsky brackets.  6j symbols are a parameter; `gsl_sf_fact` ends the process outside 0..170; the `Memoizer` is a finite map.
* Relative files.  Extraction of a number takes a whole word; integers are unbounded.
* Isospin branching.  `CanonicalizeIndicesJT` is a swap with a parameter as factor; a subspace index `kNone` fails the Eigen assertion.
* Mixer (`Mix*.v`).  An input file is a function from sector index to matrix; the commands of the control file are given (their text is modelled in `Hm*.v`).
* Conversion.  The command line words are given; an unknown format number ends the program.
* Orbital generation, counting.  `std::sort` is any permutation into order; loops that can fail to end have fuel.
* Relative filter and dilation.  The overlap integral is a parameter.
* Text form of numbers.  Floats are mantissa times a power of two; decimal printing and reading are correctly rounded.
* Navratil files.  As relative files; writing the result is not modelled.  Indexing behind a `std::array` and `GetSector` of a missing sector are UB.
* obme.cpp, obmixer, ew-gen.  Reduced elements and recoupling factors of module `am` are parameters; sector selection rules are those of module `basis`.
* moshinsky_xform.cpp.  Recoupling coefficients and Moshinsky brackets are parameters; C93 assumes their unitarity and exchange symmetry.  Spaces are lists of subspaces with lists of states; sparse matrices are dense.
* relative_me.cpp.  Recoupling factors and Wigner coefficients of module `am` are parameters.  Spaces are lists of subspaces, ordered by L where stated; symmunit looks up as module `basis` does, with kNone for what is missing.
* natorb-gen, radial-compose, radial-xform.  Files are what is read or written (chopping and rounding on output left out); control lines are parsed commands.  Eigen's eigensolver and std::sort are parameters with their documented behaviour as hypothesis.
* Oscillator functions and mesh.  A double is a real, an infinity or not-a-number, without rounding or overflow; `std::tgamma` is a parameter.  `spline::CubicIntegrate` is not modelled: C109 speaks about the integrand at the mesh points and its exact integral.
* Chiral operators.  Doubles on the mesh as for the oscillator functions; the quadrature rule is a parameter that gives a number for numbers (for C118: a linear one).  Recoupling factors, spin elements and elements of spherical harmonics are parameters with the identities stated as hypotheses.
* radial-gen, radial-extract, radial-plot.  A control file is a list of lines of words, a word comes with its values as int and double; files are what is read or written.  Angular, spline and wave functions are parameters.  For the coordinate types "o" and "g" the spline parameter gives the elements for r.
* h2mixer.  Words and lines as for radial-gen; files are what is read from them, and a target does not replace a file that is read (a target with the name of an input file truncates it before it is read: not modelled).  Two-body spaces and sectors of module `basis` are parameters.
* obscalc-ob.  Words and lines as for radial-gen; in density files a word is an integer, another number or neither, and an integer that does not fit its variable ends the program; `basis::ParseOrbitalPNStream` on the orbital lines and the 3j coefficient are parameters; the layout of the output is not modelled, its numbers are reals.
* moshinsky.cpp.  Spaces, jjJpn sectors, gathering, scattering and file readers of module basis are parameters, with hypotheses that say what they are documented to do (`MosSpec.v`: `spaces_ok`, `jj_spaces_ok`, `pn_spaces_ok`, `gathers`, `sectors_ok`).  The file is what is handed to the writer; the H2 writer itself is C09-C14.
* relative-gen, relcm-gen, relative-xform, jpv2rel, jpvstat.  Words and lines as for radial-gen (an empty line is a line without words; `mcutils::GetLine` of relative-xform passes over those).  Spaces, the identity operator, writing and reading of relative files are parameters (module basis); `reads_back` says that moshinsky reads the operator that was written.  What jpvstat prints is left out.
* h2stat.cpp.  Of the output the tables of header, orbitals and indexing are what they are made from, and matrices are matrices; the layout is not modelled.  A file has a name and contents; one that does not exist ends the program.
* Daejeon16.  Constants and results are exact decimals passed through a function `single` that keeps zero (rounding to single precision).  The tables are copied by a script that is not part of the model; a wrong copy would be a wrong model.  The label Nmax of relative subspaces is a parameter.
* pn2rel.cpp, relative-filter.cpp.  Files, spaces and writing as for jpv2rel.  A line of the interaction file is its words.  What the programs print is left out.
* statecount.cpp.  Orbitals, half-integers and AllowedTriangle are those of headers that are not in the repository (see `CountModel.v`); int products and the conversion of a long count to int (ThreeBodyDimensionOneBodyCut(N,J)) do not overflow; the layout of the tables is not modelled.
* radial-scale, moshinsky_bracket_table, make-radial-permutation.  They do not compile with the present headers: type and power of the operator, which radial-scale asks of the input stream, are taken as fields of the file, and the enumeration of states of the table is the one quoted in a comment there.  Rounding of scale factors to float is a parameter, rounding of products is left out.
* Not modelled: performance, threads other than as stated above, console output, and the files of `/repo` not named in the table.

## Findings

The theorems `*_refuted` show that the code as modelled does not have these properties:

* C15: after the last sector of a text file without final newline has been read, every later read stops with an error.
  C51: an H2 file cut inside its header is used with unset variables.  C52: files written in mode `.mat` cannot be opened again.
* C30: the band n-2 of r^2 for Delta L = +2 is skipped.  C31: the relative kinetic operator has the opposite sign ((ik)^2 = -k^2).
* C36, C58-C61: shortened or unterminated one-body and density files are accepted; unset variables are used.
* C45, C66-C68, C70: the mixer skips unknown names, reads a mass number that was never set, mixes operators of another rank, replaces
  repeated sources, and accepts an operator defined by itself.
* C46: h2conv to version 0 writes spaces that the format cannot describe, and the elements get the labels of other orbitals.
* C49: relative-filter ignores its filter.  C62: brackets end the process from 85 quanta on.  C63, C64: relative files with errors are accepted.
  C71: orbital-gen does not end for b = 0.
* C72: text files keep eight significant digits, so that two different floats can have the same text.
* C74: a line of a Navratil file with Tz outside -1..1 or between states of different parity is undefined behaviour.
  C75: pn2rel with two or three arguments is undefined behaviour.
* C81: version 15099 writes operators with Tz0 = 1 that it refuses to read; version 0 writes any orbitals; version 15200 accepts negative Tz0
  and does not compare the announced numbers of orbitals with the list; the binary header shown in the version-0 description is refused.
* C83: identity blocks pair states by index, so t+, l, s, j are wrong on spaces whose subspaces list different n.
  C84: `Hat(operator_order)` where the rank is meant; names decide normalisation; k and k.k are documented but not accepted.
  C86: obmixer adds operators on different spaces, and an operator to itself.  C87: ranks of inputs are not compared.
* C88: `2 / (lambda + 1)` in ew-gen is an integer division: every Dl file with lambda >= 2 is zero.
* C90, C91: the transformation steps do not check that their spaces fit together: a missing subspace is undefined behaviour, a missing LS state changes the result silently.
* C94: the relative dipole operator has a wrong direction factor (sign and size) in the only branch that is stored.  C95: its momentum version is the coordinate operator, halved.
* C99: symmunit does not check the indices that its look-ups return.
* C102: natorb-gen lists occupations under labels that need not be those of the orbitals it writes.  C103: without `define-densities` it dereferences a null pointer.
* C104: radial-compose tests the type of the first file twice and never that of the second.
* C108: in the momentum recurrence the sign also multiplies the second term; functions with n >= 2 are wrong (the branch is not instantiated in the repository).  C111: for a plain double OscillatorWaveFunction exchanges uninitialised values.
* C117: relcm-gen reads the number of integration steps but does not use it.
* C118: the contact term of the N2LO Gamow-Teller operator integrates psi(r) times the smeared delta function without the factor r of the volume element; its dimension is wrong by two powers of length.  C119: it is computed for all L' = L, not only for S waves.
* C120: radial-gen accepts an operator target of unknown mode and uses uninitialised parameters; a solid harmonic of negative order gives a file with rank -1 without sectors.  C123: an output that is the orbital file of a later target ends the program.
* C124: radial-extract indexes out of range if the bra space lacks a subspace of the ket space.  C125: radial-plot uses the index and the dimension of the bra subspace for the ket.
* C127: `define-xform` does not check its arguments and silently keeps the first of two definitions; a blank at the end of a `define-ob-source builtin`, `tensor-product` or `operatorV` line without its optional argument ends the program.
* C128: after `set-target-indexing-oscillator`, `set-target-indexing` changes the truncation but not the orbitals.  C129: one-body input files with different bra and ket spaces are accepted and read as if both were the ket space; a linear combination without terms is accepted and undefined when used.
* C131: obscalc-ob takes any mode but `append` as truncation and drops the fraction of twice an angular momentum; a blank after an output or density file name ends the program.  C132: header lines 2 and 3 of version 1520 are read without a check, so that missing numbers are undefined; parities are not part of versions 1405 and 1500; an element on a last line without newline is lost.  C134: `set-indexing` after `define-densities` changes the sum without a message.  C135: without `set-output-file` the file mode is uninitialised.
* C136: obmixer knows the momentum operators as `ik` and `ik.ik`, its documentation as `k` and `k.k`; `solid-harmonic` needs a rank that the documentation omits and takes an orbital file with the name of a number for it; a trailing blank in place of an optional argument ends the program.  C138: a linear combination without terms is undefined when it is written; without `set-basis` targets are written without elements.
* C139: ew-gen skips a comment only if a blank follows the hash; of two sources of one operator the first counts, of two scale factors the last.  C140: sources of k, t- and tz are read and never used.  C141: without `set-basis-scale-factor` the scale factor is uninitialised.
* C145: moshinsky ends with success although an lsjt or jjjt file could not be opened; a relative-cm source with fewer quanta than the target space leads to the use of an index that does not exist; unknown formats and negative Tz0 are noticed only after all transformations.  C143: the couplings lsjt and jjjt are accepted as sources by the input but not implemented.
* C148: relative-gen does not compare the isospin labels with the components of the Coulomb interaction: `total` without isospin 0 writes zeros, `p` with isospin 0 only gives two neutrons the interaction; labels beyond 0..2 are used as index unchecked.  C149: relcm-gen reads a number of steps and does not use it.  C153: jpvstat with more than one argument opens the file of the empty name.
* C157: the verification scan of h2stat does not notice bytes after the last sector, nor altered elements.  C154: `h2stat --verify` without a file looks for a file of that name.
* C158, C159: for states beyond 60 quanta and for J above 6 the Daejeon16 function gives zero without a message, and relative-gen sets J no further than 6; the file then holds an interaction cut at 60 quanta.
* C166: the two-body counts of statecount are neither the number of states of two identical nucleons (a doubly occupied orbital with odd J is counted) nor of a proton and a neutron.  C168: for a single intermediate angular momentum the count by angular momentum can be below the count it approximates.
* C169: radial-scale accepts a ratio of zero, which makes elements of momentum operators infinite or not numbers.

## Trusted base

* Coq's kernel (and the virtual machine used by `vm_compute` in examples and refutations).
* The correspondence of the model to the C++ text (each definition cites its lines).
* `Print Assumptions` of every theorem, as printed by the properties files; the only axioms are those of the standard library:
  of the real numbers (`ClassicalDedekindReals.sig_not_dec`, `sig_forall_dec`, `functional_extensionality_dep`) and, through its theorems on derivatives and Riemann
  integrals (C106-C111), `Classical_Prop.classic`.
  No axiom is added, no kernel check is switched off.

* no axioms ("Closed under the global context") (177 theorems): C01_binary_15200_round_trip, C02_text_15200_round_trip, C03_binary_15099_round_trip, C04_text_15099_round_trip, C05_binary_0_round_trip, C05_text_0_round_trip, C06_binary_any_file, C06_binary_random_access, C06_text_any_file, C06_text_random_access, C07_binary_skip_lands_where_read_lands, C07_text_skip_lands_where_read_lands, C08_binary_sizes, C08_size_by_type, C08_text_sizes, C09_fortran_records, C103_bad_line, C103_in_order, C103_no_density, C103_no_output, C103_other_keywords, C109_endpoints_empty, C10_text_error_otherwise, C10_text_labels, C11_binary_version, C11_binary_version_written, C11_mode_from_name, C11_text_version, C11_text_version_written, C124_arguments, C124_other_files, C12_truncated_15200, C131_blank, C139_documented, C139_hash_refuted, C139_one_meaning, C139_only, C139_read, C139_refused, C13_binary_stored, C13_factor, C13_text_stored, C140_unused, C142_input, C142_one_meaning, C142_refused, C146_input, C146_refused, C149_input, C149_input_refused, C14_binary_write_order, C14_text_write_order, C150_input, C150_input_refused, C151_input, C151_input_refused, C154_known, C154_missing, C154_mode, C154_mode_alone, C154_nothing, C154_refused, C154_shown, C154_unknown, C154_usage, C155_holds, C155_opened, C155_truncated, C155_verify, C156_matrices, C156_written, C157_altered_refuted, C157_longer_refuted, C159_spin, C15_no_final_newline_refuted, C165_complete, C165_nested, C165_one_body_cut, C165_table, C165_two_body_cut, C166_even, C166_identical, C166_identical_refuted, C166_identical_sum, C166_proton_neutron, C166_proton_neutron_refuted, C167_pairs, C167_surplus, C168_J1_bound_refuted, C168_bound, C168_states, C168_triples, C16_remap_preserves_operator, C16_remap_without_counterpart, C170_lines, C170_lines_once, C170_lines_order, C170_states, C170_states_once, C170_states_order, C17_schedule_independent, C17_writes_disjoint, C18_coverage_flags, C19_forth_and_back, C19_identity, C34_assert, C34_round_trip, C35_info, C38_halves, C42_both_orders, C42_places, C44_operator_U_unknown, C44_operator_V_unknown, C44_xform_unknown, C46_exact, C46_missing_sector_stops, C46_no_counterpart, C46_orders, C46_output_indexing, C46_to_binary_partial, C46_to_text_partial, C46_version_0_refuted, C48_couplings, C48_one_body_cut, C48_one_body_cut_J1, C48_orbital_dimension, C48_three_body_cut, C48_three_body_cut_J1, C51_truncated_header_refuted, C52_matrix_mode_refuted, C58_missing_lines, C58_no_final_newline_refuted, C59_orbitals, C61_unknown_version_refuted, C61_version_0, C61_version_1, C72_digits, C72_distinct_partial, C72_element_refuted, C72_exact_partial, C72_reader, C72_same_lines, C72_same_text_refuted, C72_special, C72_ties, C72_unit_decade, C72_zero, C73_interaction, C73_untold, C75_arguments, C75_few, C75_missing_refuted, C75_undefined, C77_class, C79_binary_15200, C79_binary_header, C79_text, C79_text_header, C80_binary_0, C80_binary_15099, C80_binary_15200, C80_matrix_mode_order, C80_sector_index, C80_text_0, C80_text_15099, C80_text_15200, C81_restrictions_refuted, C83_angular_names, C83_isospin_names, C84_kinematic_names, C84_ladder_names, C84_names, C85_input, C85_input_refused, C85_xform_scalar, C87_load, C91_complete.
* `ClassicalDedekindReals.sig_forall_dec` (82 theorems): C101_files, C109_endpoints, C120_control, C120_lines, C120_other_lines, C122_accepted, C124_lines, C124_missing, C124_missing_refuted, C126_misplaced, C126_one_meaning, C126_only, C126_read, C126_refused, C127_blank, C127_blank_refuted, C127_defined_twice, C127_defined_twice_refuted, C127_no_file_refuted, C128_mixed, C129_xforms, C129_xforms_only, C136_blank_refuted, C136_documented_partial, C136_documented_refuted, C136_misplaced, C136_momentum, C136_one_meaning, C136_only, C136_read, C136_refused, C136_solid, C136_solid_refuted, C136_xform_refuted, C139_twice_refuted, C152_unique, C153_more, C153_one, C153_usage, C163_ignored, C163_made, C163_missing, C163_only, C163_refused, C171_blocks, C23_charge, C23_selection, C25_timing, C25_timing_off, C32_assert, C33_scalar, C42_file, C42_interaction, C44_input, C49_copy, C57_identity, C57_numerical, C57_scalar, C63_ends, C63_ends_refuted, C63_ends_terminated, C64_reported_refuted, C69_redefinition, C74_absent, C74_charge_refuted, C74_parity_refuted, C74_unreadable, C76_high_J, C76_no_subspace, C76_parity, C82_channel_refused, C82_refused, C83_am_refused, C85_transformed_refused, C86_exists, C87_fermi, C89_refused, C99_labels_refuted, C99_no_sector, C99_no_state, C99_no_subspace, C99_unit_stored.
* `ClassicalDedekindReals.sig_forall_dec`, `FunctionalExtensionality.functional_extensionality_dep` (108 theorems): C100_lower_triangle, C100_natural_orbitals, C101_xform, C102_info_labels, C103_late_indexing_refuted, C104_isometry, C104_product, C104_rank_refuted, C104_refused, C104_type_refuted, C105_back, C105_product, C105_refused, C109_map, C109_points, C125_absent, C125_basis, C125_index, C125_index_refuted, C125_other_files, C125_values, C125_width, C125_width_refuted, C128_mixed_refuted, C128_no_indexing, C128_refused, C128_target, C131_one_meaning, C150_equal, C150_made, C150_only, C150_ratio, C150_refused, C150_unchanged, C158_options, C158_range, C158_symmetric, C158_table, C158_undefined, C159_refuses, C159_stored, C169_elements, C169_lengths, C169_numbers_refuted, C169_refusals, C169_twice, C171_rows, C171_twice, C25_identity, C28_constant, C32_associative, C32_product, C33_identity, C33_product, C33_symmetric, C33_twice, C47_computed_weights, C47_no_orbitals, C47_triangular_orbitals, C49_filter_refuted, C50_equal_lengths, C50_equal_lengths_element, C50_incompatible, C50_nonpositive, C50_overlaps, C50_schedules, C50_unchanged, C57_transform, C62_overflow_refuted, C69_linear_combination, C69_mismatched_term, C69_unknown_term, C70_self_reference_refused_refuted, C71_generation_ends_refuted, C71_no_end_without_l_weight, C82_channel, C82_complete, C82_product, C82_scalar, C83_am, C83_am_refuted, C83_am_square, C83_am_square_refused, C83_isospin, C83_isospin_adjoint, C83_isospin_commutator, C83_isospin_missing_refuted, C83_isospin_refused, C83_isospin_refuted, C85_transformed, C85_written, C86_quantum_numbers, C86_self_refuted, C86_spaces_refuted, C86_sum, C87_electric, C87_electric_missing, C87_electric_space, C87_electric_unset, C87_gamow_teller, C87_rank_blocks_refuted, C87_rank_refuted, C89_cutoff, C89_relcm, C91_jj, C91_missing, C97_su4_elements, C97_su4_many_body.
* `ClassicalDedekindReals.sig_forall_dec`, `ClassicalDedekindReals.sig_not_dec`, `FunctionalExtensionality.functional_extensionality_dep` (228 theorems): C102_info_labels_refuted, C103_undefined_refuted, C112_symmetric, C114_leading, C119_different_partial, C120_negative, C120_negative_refuted, C120_unknown_mode, C120_unknown_mode_refuted, C121_angular_momentum, C121_isospin, C121_kinematic, C121_radial, C121_solid_harmonic, C121_squares, C122_overlaps, C123_files, C123_needs, C123_no_orbitals, C123_overwrite_refuted, C129_builtin_refused, C129_input_refused, C129_kept, C129_names, C129_no_terms, C129_no_terms_refuted, C129_operators, C129_two_spaces, C129_two_spaces_refuted, C130_program, C130_runs, C131_blank_densities, C131_fraction_refuted, C131_line, C131_mode, C131_mode_refuted, C131_refused, C132_multi, C132_multi_agrees, C132_multi_version, C132_no_newline, C132_no_newline_refuted, C132_number_refuted, C132_parity_refuted, C132_short_refuted, C132_single, C132_single_agrees, C132_single_other, C132_single_version, C133_report, C134_before_orbitals, C134_reindexed_refuted, C135_no_output, C135_no_output_refuted, C137_only, C137_program, C138_lacking, C138_no_basis_refuted, C138_no_operator, C138_no_terms_refuted, C138_xform, C140_only, C140_program, C141_elsewhere, C141_lacking, C141_no_indexing, C141_no_scale, C141_no_scale_refuted, C143_impossible, C143_only, C143_source, C144_h2, C144_h2_relcm, C144_jjjt, C144_jjjt_relcm, C144_lsjt, C144_lsjt_relcm, C144_relcm, C145_format, C145_negative, C145_too_small_refuted, C145_unwritten_refuted, C147_species, C151_isoscalar, C151_only, C151_refused, C151_species, C152_jpv, C152_own, C152_species, C152_xform, C161_made, C162_missing, C162_only, C162_unreadable, C164_filter, C164_pn, C20_identity, C21_composition, C22_elements, C22_linear, C22_symmetric, C22_total, C23_tensor_exchange_bra, C23_tensor_exchange_ket, C23_upgrade_elements, C23_upgrade_exchange, C24_same_objects, C24_tensor_elements, C26_adjoint, C26_selection, C27_assert, C27_constant, C27_sum, C27_symmetric, C28_product, C29_symmetric, C29_virial, C30_radial, C30_radial_sqr, C30_radial_sqr_upward, C30_refuted, C31_blocks, C31_diagonal, C31_isovector, C31_labels, C31_refuted, C35_multi, C36_always_accepted, C36_bad_word, C36_missing, C36_truncated_multi_refuted, C36_truncated_single_refuted, C37_observable, C38_asked, C38_factorials, C38_terminates, C39_transparent, C40_selection, C41_inverse, C41_round_trip, C41_round_trip_T0, C41_table, C43_coulomb, C43_coulomb_T0, C43_labels, C43_negative, C43_total, C44_coefficient_order, C44_mixed_files, C44_operator_U, C44_operator_V, C44_order, C44_runs, C44_target_is_combination, C44_xform, C45_unknown_source_ignored, C45_unknown_source_reported_refuted, C53_number_operator, C54_schedule, C54_symmetric, C55_commutator, C55_number, C56_numerical, C56_order_0, C56_oscillator, C59_last_line_unused, C59_no_final_newline_refuted, C59_single, C60_other_space_refuted, C62_abort_refuted, C62_no_abort, C65_branching, C65_lowering, C66_mass_initialised_refuted, C66_without_mass_undefined, C67_quantum_numbers_checked_refuted, C68_source_names_unique_refuted, C73_file, C77_index, C77_multi, C77_single, C78_exchange, C78_recursion, C78_seeds, C78_values, C83_generated_am, C83_generated_isospin, C83_generated_square, C84_exists, C84_generated_ladder, C84_generated_partial, C84_identity, C84_ladder, C84_ladder_refused, C84_name_refuted, C84_normalisation_refuted, C84_orbital_file, C84_solid_harmonic, C88_dipole, C88_orbital_refuted, C88_orbital_zero, C88_spin, C90_missing, C90_two_body, C92_rose, C92_transformation, C93_identity, C94_dipole_elements, C94_dipole_refuted, C94_direction_down, C94_direction_square, C94_direction_up, C94_unit_vector, C95_momentum_is_coordinate, C95_momentum_refuted, C96_isospin_elements, C96_isovector_spin_values, C96_labels_refused, C96_orbital_elements, C96_orbital_plus_spin, C96_spin_elements, C98_quadrupole_elements, C98_quadrupole_momentum, C99_by_name, C99_missing_parameters, C99_unknown_coordinate, C99_unknown_name.
* `ClassicalDedekindReals.sig_forall_dec`, `ClassicalDedekindReals.sig_not_dec`, `Classical_Prop.classic`, `FunctionalExtensionality.functional_extensionality_dep` (70 theorems): C106_closed_form, C106_infinity, C106_origin, C106_shape, C107_gamma_exists, C107_gamma_unique, C107_orthonormal, C108_first, C108_norm, C108_orthogonal_refuted, C108_overlap, C108_value_0, C108_value_1, C108_value_2, C109_integrand, C109_ratio_one, C110_k2_down, C110_k2_same, C110_k2_up, C110_k_down, C110_k_up, C110_r2_down, C110_r2_same, C110_r2_up, C110_r_down, C110_r_up, C111_negative, C111_scalar_0, C111_scalar_negative, C111_scalar_refuted, C111_scalar_undefined, C111_single, C112_elements, C113_contact, C113_tensor, C113_yukawa, C115_labels_gt, C115_labels_m1, C115_negative, C115_no_points, C115_not_a_number, C115_regulator, C115_steps, C116_elements, C117_operator, C117_steps_refuted, C117_unknown, C117_unreadable, C118_contact, C118_m1, C118_pion_partial, C118_units_refuted, C119_waves_refuted, C147_interaction, C147_made, C147_only, C147_refused, C147_unknown, C148_neutrons_refuted, C148_total_refuted, C148_undefined_refuted, C149_made, C149_only, C149_refused, C152_gen, C152_scalar, C159_program, C159_program_refused, C160_two_body, C35_constant.
