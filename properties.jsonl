{"id": "C01", "title": "Binary version-15200 H2 file round trip", "statement": "If a user opens an output H2 stream in binary mode with format 15200 and writes every sector in order, then an input stream opened on the resulting bytes reports the same orbitals, operator quantum numbers and truncation, and reading any sector returns, at every stored position (upper triangle for diagonal sectors, everywhere otherwise), the written matrix element rounded to single precision, and zero at every other position.", "quantifier": "every orbital list, truncation, tensor rank, sector list and every list of matrices of matching dimensions", "why_tests_cant": "A test writes a handful of spaces; the claim is about every space, every sector shape (empty, diagonal, off-diagonal) and every bit pattern of values.", "anchors": ["libraries/tbme/h2_io_v15200.cpp: WriteHeader_Version15200, ReadHeader_Version15200, WriteSector_Version15200, ReadSector_Version15200", "libraries/tbme/h2_io.cpp: OutH2Stream, InH2Stream"]}
{"id": "C02", "title": "Text version-15200 H2 file round trip", "statement": "The same round trip holds for text mode with format 15200: what is read back is exactly what the printed decimal forms denote, at the same positions, and every label check of the reader succeeds on the writer's output.", "quantifier": "every orbital list, truncation, tensor rank, sector list and every list of matrices", "why_tests_cant": "The label columns depend on all quantum numbers at once; finite tests never exercise all combinations of species, orbital offset and angular momentum.", "anchors": ["libraries/tbme/h2_io_v15200.cpp: WriteSector_Version15200, ReadSector_Version15200, ReadHeader_Version15200, WriteHeader_Version15200"]}
{"id": "C03", "title": "Binary version-15099 H2 file round trip", "statement": "If a file is written in binary mode with format 15099 for a charge-conserving operator whose per-species element counts fit a Fortran record, an input stream opened on it succeeds, all embedded record delimiters are accepted, and every sector reads back the single-precision image of what was written.", "quantifier": "every charge-conserving indexing in proton-proton, neutron-neutron, proton-neutron order and every list of matrices", "why_tests_cant": "Delimiters are placed according to where species change in the sector list; missing species, empty sectors and single-sector species are corner cases that only a proof over all sector lists covers.", "anchors": ["libraries/tbme/h2_io_v15099.cpp: WriteHeader_Version15099, ReadHeader_Version15099, WriteSector_Version15099, ReadSector_Version15099"]}
{"id": "C04", "title": "Text version-15099 H2 file round trip", "statement": "The same round trip holds in text mode for format 15099, provided each per-species element count is at most 2147483647.", "quantifier": "every charge-conserving indexing and every list of matrices", "why_tests_cant": "Same as C03; and the size limit is far beyond what a test could write.", "anchors": ["libraries/tbme/h2_io_v15099.cpp"]}
{"id": "C05", "title": "Version-0 H2 file round trip within its restrictions", "statement": "A file written in format 0 (binary or text) for a scalar, parity- and charge-conserving operator on an oscillator space defined by one- and two-body quanta cutoffs reads back with the same header and the same stored matrix elements.", "quantifier": "every cutoff pair, every sector list of that scheme and every list of matrices", "why_tests_cant": "The record delimiters and the single-J labels have to agree for every space, not only for the small spaces of a test.", "anchors": ["libraries/tbme/h2_io_v0.cpp"]}
{"id": "C06", "title": "Random access to H2 sectors does not depend on history", "statement": "On an input stream, reading sector i after any sequence of earlier reads, forwards or backwards, yields the same matrix as reading the file sequentially from the start.", "quantifier": "every history of ReadSector calls with valid indices on a well-formed file, each format and mode", "why_tests_cant": "The stream keeps a cache of sector positions that depends on the whole history; the number of histories is unbounded.", "anchors": ["libraries/tbme/h2_io.cpp: InH2Stream::ReadSector, InH2Stream::SkipSector, InH2Stream::SeekToSector"]}
{"id": "C07", "title": "Skipping a sector lands where reading it lands", "statement": "For any file, whenever reading a sector succeeds, skipping it from the same position also succeeds and leaves the stream at the same position, so the following sector is read correctly, and neither goes backwards.", "quantifier": "every format, mode, sector list and sector index", "why_tests_cant": "Skip and read are separate code with separate size arithmetic (record delimiters, line counts); agreement must hold for all species layouts.", "anchors": ["libraries/tbme/h2_io_v15200.cpp: SkipSector_Version15200", "libraries/tbme/h2_io_v15099.cpp: SkipSector_Version15099", "libraries/tbme/h2_io_v0.cpp: SkipSector_Version0"]}
{"id": "C08", "title": "Announced matrix sizes equal the number of stored elements", "statement": "The per-species sizes announced in the header equal the number of matrix elements that the file contains for that species, and they add up to the total number of stored elements.", "quantifier": "every sector list", "why_tests_cant": "Requires summation over arbitrary sector lists; consumers allocate memory from these numbers.", "anchors": ["libraries/tbme/h2_io.cpp: EvaluateCountsByType, GetSectorCount"]}
{"id": "C09", "title": "Binary files are well-formed Fortran record sequences", "statement": "A binary file of format 0 or 15099 decomposes completely into Fortran unformatted records, each preceded and followed by the same four-byte length, with one record per species of matrix elements.", "quantifier": "every sector list grouped by species and every list of matrices", "why_tests_cant": "The head of a record is written while handling one sector and the tail while handling another; matching is a global property of the write history.", "anchors": ["libraries/tbme/h2_io_v0.cpp: WriteSector_Version0", "libraries/tbme/h2_io_v15099.cpp: WriteSector_Version15099", "libraries/tbme/h2_io.cpp: SectorIsFirstOfType, SectorIsLastOfType"]}
{"id": "C10", "title": "Text reader never accepts an element under wrong labels", "statement": "If reading a text sector succeeds, then every line consumed for that sector carried exactly the orbital indices and angular momenta of the position into which its value was stored; any line with a differing label makes the read stop with an error.", "quantifier": "every text file content (well-formed or not), every sector", "why_tests_cant": "Quantifies over arbitrary corrupted files.", "anchors": ["libraries/tbme/h2_io_v15200.cpp: ReadSector_Version15200", "libraries/tbme/h2_io_v15099.cpp: ReadSector_Version15099", "libraries/tbme/h2_io_v0.cpp: ReadSector_Version0"]}
{"id": "C11", "title": "File mode and version dispatch", "statement": "The input/output mode is determined by the last four characters of the file name alone (.dat text, .bin binary, .mat matrix) and every other name is refused; an H2 file announcing a version other than 0, 15099 or 15200 is refused, and the version announced by a written file is the version the reader uses.", "quantifier": "every file name and every announced version number", "why_tests_cant": "The set of names and version numbers is infinite.", "anchors": ["libraries/tbme/h2_io.cpp: DeducedIOMode, InH2Stream::ReadVersion, OutH2Stream::WriteVersion"]}
{"id": "C12", "title": "Truncated binary data is never read as matrix elements", "statement": "If a binary version-15200 file ends before the end of a sector, reading that sector stops with an error instead of returning a matrix.", "quantifier": "every file prefix (crash point of the writer) and every sector", "why_tests_cant": "Crash points are arbitrary byte positions in arbitrary files.", "anchors": ["libraries/tbme/h2_io_v15200.cpp: ReadSector_Version15200"]}
{"id": "C13", "title": "Normalised-antisymmetrised conversion on output", "statement": "When conversion from antisymmetrised to normalised antisymmetrised elements is requested, each stored element equals the given element times 1/sqrt(2) for each side which is a like-species state of two identical orbitals, and is otherwise unchanged; proton-neutron elements are never rescaled.", "quantifier": "every sector and every matrix", "why_tests_cant": "Must hold for every combination of species and identical orbitals.", "anchors": ["libraries/tbme/h2_io_v15200.cpp: WriteSector_Version15200", "libraries/tbme/h2_io_v15099.cpp: WriteSector_Version15099", "libraries/tbme/h2_io_v0.cpp: WriteSector_Version0"]}
{"id": "C14", "title": "Writers accept sectors only in order and exactly once", "statement": "A history of sector writes runs to completion without an assertion failure only if the sectors are written in increasing order from the first with matrices of the sector's dimensions; no history can leave a file in which two sectors are exchanged or repeated.", "quantifier": "every history of WriteSector calls", "why_tests_cant": "Histories are unbounded.", "anchors": ["libraries/tbme/h2_io.cpp: OutH2Stream::WriteSector"]}
{"id": "C15", "title": "Re-reading from a text file without a final newline", "statement": "Random access (C06) also holds for text files whose last line is not terminated by a newline.", "quantifier": "every read history on such a file", "why_tests_cant": "Depends on a particular interaction of end-of-file state and position cache after the last sector has been read.", "anchors": ["libraries/tbme/h2_io.cpp: InH2Stream::ReadSector"]}
{"id": "C16", "title": "Two-body remapping preserves the operator", "statement": "Remapping a two-body matrix between two indexings preserves the operator: each target element whose bra and ket orbital pairs (as labelled orbitals, up to exchange) exist in the source equals the source element times the exchange phase -(-1)^(J-j1-j2) for each pair whose order is exchanged, and each target element with no source counterpart is zero.", "quantifier": "every pair of orbital lists, every pair of two-body spaces with distinct states, every sector and every matrix", "why_tests_cant": "Orbital reorderings are arbitrary permutations with truncation; finitely many tests cannot cover them.", "anchors": ["libraries/tbme/tbme_mapping.cpp: TwoBodyMapping, RemappedMatrixJJJPN"]}
{"id": "C17", "title": "Remapping is independent of the parallel schedule", "statement": "The remapped matrix does not depend on the order or interleaving in which the parallel loop processes its iterations, no two iterations write the same element, and no write is out of bounds.", "quantifier": "every permutation of the loop iterations", "why_tests_cant": "The loop is parallelised with OpenMP; schedules are not controllable by tests.", "anchors": ["libraries/tbme/tbme_mapping.cpp: RemappedMatrixJJJPN"]}
{"id": "C18", "title": "Mapping coverage flags are truthful", "statement": "After a mapping is constructed, domain_subspaces_covered (domain_states_covered) is true exactly when every source subspace (state) has an image, and range_subspaces_covered (range_states_covered) is true exactly when every target subspace (state) is the image of some source subspace (state).", "quantifier": "every pair of source and target spaces", "why_tests_cant": "The flags are computed by counting; equivalence to coverage needs injectivity for all spaces.", "anchors": ["libraries/tbme/tbme_mapping.cpp: TwoBodyMapping; tbme_mapping.h: domain_subspaces_covered etc."]}
{"id": "C19", "title": "Remapping forth and back is the truncation", "statement": "Remapping to the same indexing returns the matrix unchanged, and remapping to another indexing and back returns the original elements for all states present in both and zero for the others.", "quantifier": "every pair of orbital spaces and matrices", "why_tests_cant": "Round trip over arbitrary permutations and truncations.", "anchors": ["libraries/tbme/tbme_mapping.cpp: TwoBodyMapping, RemappedMatrixJJJPN"]}
{"id": "C20", "title": "Identity change of basis leaves two-body operators unchanged", "statement": "If the one-body overlaps are those of a basis with itself (one on equal orbitals and zero otherwise), the two-body transformation of a sector of normalised (antisymmetrised) elements returns exactly the source matrix.", "quantifier": "every two-body subspace pair in canonical order, like-species or proton-neutron, and every matrix", "why_tests_cant": "Depends on the interplay of exchange phase, the J selection of identical pairs and 1/sqrt(2) factors for every pair of orbitals.", "anchors": ["libraries/tbme/tbme_xform.cpp: TwoBodyOverlap, TwoBodyTransformationMatrix, TwoBodyTransformedMatrix"]}
{"id": "C21", "title": "Successive changes of basis compose", "statement": "For complete two-body subspaces (all orbital pairs of the intermediate one-body space), transforming with overlaps U and then with overlaps V equals transforming once with the composed overlaps U.V.", "quantifier": "every pair of overlap matrices and every two-body matrix", "why_tests_cant": "An algebraic identity between unbounded sums over antisymmetrised pairs.", "anchors": ["libraries/tbme/tbme_xform.cpp: TwoBodyTransformationMatrix, TwoBodyTransformedMatrix"]}
{"id": "C22", "title": "Change of basis preserves hermiticity and linearity", "statement": "The two-body transformation of a symmetric diagonal-sector matrix is symmetric, and the transformation is linear in the matrix.", "quantifier": "every overlap data, every subspace and matrix", "why_tests_cant": "Universal algebraic statement.", "anchors": ["libraries/tbme/tbme_xform.cpp: TwoBodyTransformedMatrix"]}
{"id": "C23", "title": "Antisymmetry of generated two-body elements", "statement": "The antisymmetrised two-body element computed for an upgraded one-body operator or a separable product of one-body operators changes by the factor -(-1)^(J-ja-jb) when the two orbitals on one side are exchanged.", "quantifier": "all orbital labels and one-body matrix elements, for any recoupling coefficients", "why_tests_cant": "Requires all orbital coincidence patterns at once.", "anchors": ["libraries/tbme/tbme_separable.cpp: UpgradeOneBodyOperatorJJJPN, RacahReduceTensorProductJJJPN"]}
{"id": "C24", "title": "Short cut for equal ranks in separable products", "statement": "When both one-body factors have the same rank, the shortcut evaluation of exchanged recoupling coefficients by a sign gives the same two-body elements as evaluating the coefficients, and passing the same operator object twice gives the same result as passing two equal copies.", "quantifier": "all labels, and any recoupling coefficients with the column-exchange symmetry of the 9-j symbol", "why_tests_cant": "Universal over coefficients and labels.", "anchors": ["libraries/tbme/tbme_separable.cpp: RacahReduceTensorProductJJJPN"]}
{"id": "C25", "title": "Two-body identity is normalised for A particles", "statement": "The generated two-body identity, summed over all A(A-1)/2 pairs, has expectation value one for every A of at least two, and its off-diagonal elements are zero.", "quantifier": "every A >= 2 within machine range and every subspace", "why_tests_cant": "Unbounded A.", "anchors": ["libraries/tbme/tbme_separable.cpp: IdentityOperatorMatrixJJJPN"]}
{"id": "C26", "title": "Oscillator raising and lowering elements are adjoint", "statement": "The analytic oscillator matrix elements of the raising and lowering operators are transposes of each other up to the reduced-matrix-element sign convention used in the formulas, and vanish unless quanta change by one and orbital angular momentum by one.", "quantifier": "all quantum numbers N, l on both sides with l <= N and equal parity", "why_tests_cant": "Infinite family of quantum numbers.", "anchors": ["libraries/analytic/radial_oscillator_me.h: CDaggerOscillatorMatrixElement, COscillatorMatrixElement"]}
{"id": "C27", "title": "Coordinate and momentum elements from ladder elements", "statement": "The analytic matrix element of r is the sum, and that of ik the difference, of raising and lowering elements over sqrt 2; hence r is symmetric and ik antisymmetric (in the radial convention of the formulas).", "quantifier": "all quantum numbers", "why_tests_cant": "Infinite family.", "anchors": ["libraries/analytic/radial_oscillator_me.h: CoordinateOscillatorMatrixElement"]}
{"id": "C28", "title": "Squared coordinate elements are products of coordinate elements", "statement": "For every change of orbital angular momentum, the analytic element of r^2 (and of (ik)^2) equals the sum over intermediate oscillator states of one intermediate orbital angular momentum of products of elements of r (of ik).", "quantifier": "all quantum numbers and every admissible intermediate orbital angular momentum", "why_tests_cant": "Infinite family of quantum numbers; all nine branches of the formula.", "anchors": ["libraries/analytic/radial_oscillator_me.h: CoordinateSqrOscillatorMatrixElement, CoordinateOscillatorMatrixElement"]}
{"id": "C29", "title": "Virial cancellation of r^2 and (ik)^2", "statement": "The elements of r^2 minus those of (ik)^2 for equal orbital angular momentum form the diagonal matrix 2N+3, i.e. generated oscillator kinetic and potential matrices add up to the oscillator Hamiltonian.", "quantifier": "all quantum numbers", "why_tests_cant": "Infinite family.", "anchors": ["libraries/analytic/radial_oscillator_me.h: CoordinateSqrOscillatorMatrixElement"]}
{"id": "C30", "title": "Relative-coordinate radial matrices are complete", "statement": "The relative radial matrices of r^2 (and r) contain the analytic matrix element at every pair of radial quantum numbers, i.e. the banded loop skips only elements that are zero.", "quantifier": "all dimensions and all pairs of orbital angular momenta accepted by the function", "why_tests_cant": "All matrix sizes.", "anchors": ["libraries/relative/relative_me.cpp: RadialCoordinateSqrMatrix, RadialCoordinateMatrix"]}
{"id": "C31", "title": "Relative kinetic operator is positive", "statement": "The relative operator generated for the momentum squared has the positive diagonal (1/2)(N+3/2) announced in its documentation.", "quantifier": "all N", "why_tests_cant": "Sign convention of a whole operator, for all N.", "anchors": ["libraries/relative/relative_me.cpp: ConstructCoordinateSqr", "libraries/analytic/radial_oscillator_me.h"]}
{"id": "C32", "title": "Radial operator composition is the matrix product", "statement": "Composing two sector-stored one-body operators gives exactly the matrix product of the corresponding full matrices wherever the output sectors allow, and is associative.", "quantifier": "all spaces, sector sets and blocks", "why_tests_cant": "Arbitrary sparsity patterns of sectors.", "anchors": ["libraries/obme/radial.cpp: ComposeRadialOperators"]}
{"id": "C33", "title": "One-body similarity transformation", "statement": "The similarity transformation of a one-body operator equals U^T O U as full matrices, sectors without counterpart in the source are zero, an identity transformation returns the operator, and symmetric operators stay symmetric.", "quantifier": "all spaces, sectors and blocks", "why_tests_cant": "Arbitrary sector structures.", "anchors": ["libraries/obme/radial.cpp: SimilarityTransformOperator"]}
{"id": "C34", "title": "One-body matrix element file round trip", "statement": "Writing one-body operator blocks to a file and reading the file back yields the printed values of all blocks in the same sectors.", "quantifier": "all indexings and blocks", "why_tests_cant": "All sector lists including empty blocks.", "anchors": ["libraries/obme/obme_io.cpp: InOBMEStream, OutOBMEStream"]}
{"id": "C35", "title": "Density matrix elements are stored where their labels say", "statement": "After reading multi-file density data, each block entry holds the value whose info line carried those orbital labels and multipole, scaled to the Rose convention, and all other entries are zero.", "quantifier": "all info/data file contents with distinct labels", "why_tests_cant": "Arbitrary line orders.", "anchors": ["libraries/density/obdme_io.cpp: ReadInfo1500, ReadData, InitStorage"]}
{"id": "C36", "title": "Truncated density files are rejected", "statement": "A density data file that contains fewer elements than announced is not silently accepted.", "quantifier": "all data file prefixes", "why_tests_cant": "Arbitrary truncation points.", "anchors": ["libraries/density/obdme_io.cpp: ReadData"]}
{"id": "C37", "title": "One-body observable from density", "statement": "The reduced matrix element computed from an operator and a density equals the sum over all orbital pairs of (2j+1) O rho divided by sqrt(2 J0+1), and not-a-number exactly when selection rules forbid it or the density is unavailable.", "quantifier": "all operators and densities on a common space", "why_tests_cant": "Arbitrary spaces.", "anchors": ["programs/obutils/obscalc-ob.cpp: CalculateMatrixElement"]}
{"id": "C38", "title": "Moshinsky bracket evaluation terminates and stays in domain", "statement": "Every evaluation of an oscillator bracket terminates, only evaluates brackets with non-negative radial quantum numbers and the same total number of quanta, and every factorial argument is a non-negative integer.", "quantifier": "all quantum numbers", "why_tests_cant": "Recursion depth is unbounded over inputs.", "anchors": ["libraries/moshinsky/moshinsky_bracket.cpp: MoshinskyBracket, SeedMoshinskyBracket, MoshinskyACoefficient"]}
{"id": "C39", "title": "Moshinsky bracket cache is transparent", "statement": "The value returned for a bracket does not depend on which brackets were requested earlier.", "quantifier": "all histories of requests", "why_tests_cant": "The cache is shared across calls; histories are unbounded.", "anchors": ["libraries/moshinsky/moshinsky_bracket.cpp: MoshinskyBracket"]}
{"id": "C40", "title": "Oscillator bracket selection rules", "statement": "A bracket is zero whenever total quanta are not conserved or the angular momenta cannot couple.", "quantifier": "all quantum numbers", "why_tests_cant": "All combinations.", "anchors": ["libraries/moshinsky/moshinsky_bracket.cpp: MoshinskyBracket"]}
{"id": "C41", "title": "Isospin to proton-neutron conversion", "statement": "The isospin branching used to form pp, nn and pn relative matrix elements from isoscalar, isovector and isotensor components and the inverse table used on input are mutually inverse, so reading a pn interaction and writing its pn form reproduces it.", "quantifier": "all triples of matrix elements", "why_tests_cant": "Real-valued universal statement.", "anchors": ["libraries/relative/jpv_io.cpp: ReadJPVOperatorPN", "libraries/moshinsky/moshinsky_xform.cpp: TwoBodyMatrixJJJPN"]}
{"id": "C42", "title": "Relative interaction input fills the whole sector", "statement": "Reading an interaction file stores every number of a block at the position given by the triangular storage order of the format, in both the flipped and unflipped sector order, without overwriting another element.", "quantifier": "all block dimensions", "why_tests_cant": "All sizes of the triangular walk.", "anchors": ["libraries/relative/jpv_io.cpp: ReadJPVOperator"]}
{"id": "C43", "title": "Coulomb acts only between protons", "statement": "The isospin components generated for the Coulomb interaction give after branching the Coulomb matrix element for pp and zero for nn and pn.", "quantifier": "all relative matrix elements", "why_tests_cant": "Real-valued identity.", "anchors": ["libraries/relative/relative_me.cpp: ConstructCoulombOperator, kSingleSpeciesOperatorIsospinFactors"]}
{"id": "C44", "title": "Target of the mixer is the requested linear combination", "statement": "For each target sector the mixer writes the sum over the listed sources of coefficient times the source's matrix (after chopping), regardless of the order in which sources are produced.", "quantifier": "all source sets, coefficients and orders", "why_tests_cant": "Arbitrary configurations.", "anchors": ["programs/h2utils/h2mixer.cpp: TargetChannel::GenerateTargetMatrix, InputChannel::PopulateSourceMatrix"]}
{"id": "C45", "title": "Misspelt mixer sources are reported", "statement": "A target channel that refers to a source which no source channel provides is reported as an error.", "quantifier": "all inputs", "why_tests_cant": "Any name.", "anchors": ["programs/h2utils/h2mixer.cpp: GenerateTargetMatrix"]}
{"id": "C46", "title": "H2 conversion preserves matrix elements", "statement": "Converting an H2 file to another format re-orders sectors but every labelled matrix element of the output equals the labelled element of the input.", "quantifier": "all input files and both sector orderings", "why_tests_cant": "All sector lists.", "anchors": ["programs/h2utils/h2conv.cpp"]}
{"id": "C47", "title": "Triangular orbital generation is exact", "statement": "Generating orbitals with a weight rule a*n+b*l <= w (a,b>0) lists, for each species, exactly the orbitals with n,l>=0, j=l+-1/2>0 within the cutoff, each once.", "quantifier": "all positive a,b and cutoffs", "why_tests_cant": "All cutoffs.", "anchors": ["programs/obutils/orbital-gen.cpp"]}
{"id": "C48", "title": "State counting formula", "statement": "The closed formula used to count the intermediate couplings of three angular momenta equals the number of intermediate values satisfying both triangle conditions.", "quantifier": "all angular momenta", "why_tests_cant": "All angular momenta.", "anchors": ["programs/statecount/statecount.cpp"]}
{"id": "C49", "title": "Relative operator filter", "statement": "Filtering a relative operator keeps exactly the elements accepted by the filter and zeroes the others, for the stored triangle of each sector.", "quantifier": "all operators and cutoffs", "why_tests_cant": "All sizes.", "anchors": ["programs/relutils/relative-filter.cpp: FilterOperator"]}
{"id": "C50", "title": "Relative basis-scale transformation", "statement": "A transformation of a relative operator with identical oscillator lengths leaves it unchanged, and the result is independent of the parallel schedule.", "quantifier": "all operators and schedules", "why_tests_cant": "Schedules and sizes.", "anchors": ["libraries/relative/relative_xform.cpp"]}
{"id": "C51", "title": "Truncated H2 header is rejected", "statement": "Opening a binary H2 file which ends before the end of its header stops with an error.", "quantifier": "every file prefix shorter than the header", "why_tests_cant": "Every crash point inside the header has to be considered, and the failing outcome is undefined behaviour which a test may not reveal.", "anchors": ["libraries/tbme/h2_io_v0.cpp, h2_io_v15099.cpp, h2_io_v15200.cpp: ReadHeader", "mcutils ReadBinary"]}
{"id": "C52", "title": "Every accepted H2 file name can be read back", "statement": "If an output H2 stream accepts a file name and a whole operator is written to it, an input stream can be opened on the result.", "quantifier": "every file name accepted by the mode deduction", "why_tests_cant": "Ranges over all file names and operators; the failing mode has no stream object so using it is undefined behaviour.", "anchors": ["libraries/tbme/h2_io.cpp: DeducedIOMode, InH2Stream::InH2Stream, OutH2Stream::WriteSector"]}
{"id": "C53", "title": "Number operator counts particles", "statement": "The one-body number operator, converted to its two-body form for A particles, is 2/(A-1) times the identity in every two-body subspace, so that its sum over the A(A-1)/2 pairs is A.", "quantifier": "every A other than one within machine range, every canonical two-body subspace, like-species or proton-neutron", "why_tests_cant": "Depends on all coincidence patterns of orbitals and exchange phases for every J.", "anchors": ["libraries/tbme/tbme_separable.cpp: UpgradeOneBodyOperatorJJJPN"]}
{"id": "C54", "title": "Generated two-body matrices do not depend on the thread schedule and preserve hermiticity", "statement": "Evaluating the elements of an upgraded one-body operator or of a separable product in parallel, in any order of iterations, gives the same matrix, and a symmetric scalar one-body operator gives symmetric two-body matrices on diagonal sectors.", "quantifier": "all orders of the parallel iterations, all operators, spaces and sectors", "why_tests_cant": "All schedules of a parallel loop.", "anchors": ["libraries/tbme/tbme_separable.cpp: UpgradeOneBodyOperatorJJJPN, RacahReduceTensorProductJJJPN"]}
{"id": "C55", "title": "Ladder elements satisfy the oscillator algebra", "statement": "Combined with the angular factors of a vector operator, the analytic raising and lowering elements give c-dagger.c = N and the canonical commutator c.c-dagger - c-dagger.c = 3 between all oscillator states of equal orbital angular momentum.", "quantifier": "all oscillator states N, l and all intermediate states", "why_tests_cant": "Sums over intermediate states are infinite families; tests check single numerical elements against other code with the same formulas.", "anchors": ["libraries/analytic/radial_oscillator_me.h: CDaggerOscillatorMatrixElement, COscillatorMatrixElement"]}
{"id": "C56", "title": "Generated oscillator radial operators hold the analytic elements", "statement": "For r, ik (rank 1, odd parity) and r^2, (ik)^2 (rank 0 or 2, even parity) in the oscillator basis, every element of every generated sector block is the analytic element of the two orbitals; no assertion on the change of orbital angular momentum can fail and no element is NaN.", "quantifier": "all spaces of spin-1/2 orbitals, all sectors obeying the selection rules of the operator", "why_tests_cant": "Tests generate a few truncated spaces; the assertion and the square roots must be safe for every orbital pair.", "anchors": ["libraries/obme/radial.cpp: GenerateRadialOperator"]}
{"id": "C57", "title": "Overlaps of a basis with itself are the identity", "statement": "The radial overlaps of a basis with itself at unit scale form the identity matrix, and a similarity transformation with them returns every operator unchanged.", "quantifier": "all spaces with distinct labels, all operators on them", "why_tests_cant": "It is a statement about all spaces and operators.", "anchors": ["libraries/obme/radial.cpp: GenerateRadialOverlaps, SimilarityTransformOperator"]}
{"id": "C58", "title": "Truncated one-body operator files are rejected", "statement": "Reading a one-body operator file whose body holds fewer rows than its header calls for does not succeed.", "quantifier": "all indexings, all header-complete files with too few body lines", "why_tests_cant": "The truncation point is arbitrary, and so is whether the last line ends with a newline.", "anchors": ["libraries/obme/obme_io.cpp: ReadNextSector"]}
{"id": "C59", "title": "Single-file densities use every data line", "statement": "After reading a single-file density, each element is stored at the states of its two orbitals, divided by Hat(j) of the bra, and all other entries are zero.", "quantifier": "all single-file contents with distinct labels", "why_tests_cant": "Arbitrary line orders and line endings.", "anchors": ["libraries/density/obdme_io.cpp: ReadData1520"]}
{"id": "C60", "title": "Observables refuse operators on another orbital space", "statement": "An operator stored for an orbital space other than that of the densities is not silently contracted with them.", "quantifier": "all pairs of spaces", "why_tests_cant": "Tests use one space throughout.", "anchors": ["programs/obutils/obscalc-ob.cpp: CalculateMatrixElement, OneBodyOperator"]}
{"id": "C61", "title": "One-body operator headers of unknown kind are rejected", "statement": "A one-body operator file with an unknown version number or constraint mode is rejected, and every accepted header determines the operator type.", "quantifier": "all header contents", "why_tests_cant": "The behaviour depends on uninitialised variables.", "anchors": ["libraries/obme/obme_io.cpp: ReadHeader"]}
{"id": "C62", "title": "Allowed oscillator brackets can be evaluated", "statement": "Every oscillator bracket allowed by the selection rules is evaluated without ending the process and without overflow of an intermediate double.", "quantifier": "all quantum numbers", "why_tests_cant": "The limits lie above the shells used in tests and depend on the combination of angular momenta.", "anchors": ["libraries/moshinsky/moshinsky_bracket.cpp: MoshinskyACoefficient, SeedMoshinskyBracket"]}
{"id": "C63", "title": "Reading a relative interaction file ends", "statement": "Reading an interaction file in the J. P. Vary format ends, with a result or an error, whatever the file contains.", "quantifier": "all files, with and without a final newline", "why_tests_cant": "Non-termination on a truncated file; no test file is cut off there.", "anchors": ["libraries/relative/jpv_io.cpp: ReadJPVOperator"]}
{"id": "C64", "title": "Malformed elements of a relative interaction file are reported", "statement": "A word among the matrix elements of a block which is not a number makes reading fail.", "quantifier": "all files", "why_tests_cant": "Silent wrong data on malformed input.", "anchors": ["libraries/relative/jpv_io.cpp: ReadJPVOperator"]}
{"id": "C65", "title": "Branching to proton-neutron matrix elements obeys the Wigner-Eckart theorem", "statement": "For an antisymmetrized operator stored in the jjJT scheme, every jjJpn matrix element formed is the sum over operator and state isospins of Clebsch-Gordan coefficient times normalization times reduced matrix element, including the phases for orbital order and bra-ket order; forbidden like-orbital combinations contribute nothing.", "quantifier": "all spaces, operators with T0 in 0..2, sectors with raising or conserved Tz", "why_tests_cant": "Many phase conventions combine; tests cover a few interactions only.", "anchors": ["libraries/moshinsky/moshinsky_xform.cpp: TwoBodyMatrixJJJPN"]}
{"id": "C66", "title": "The mixer never uses an uninitialised number of nucleons", "statement": "A mixer run whose control file does not set the number of nucleons, but asks for an operator that depends on it, stops with an error.", "quantifier": "all control files without set-mass", "why_tests_cant": "An uninitialised member usually holds zero in tests.", "anchors": ["programs/h2utils/h2mixer.cpp: RunParameters", "programs/h2utils/h2mixer.cpp: BuiltinChannel::PopulateSourceMatrix"]}
{"id": "C67", "title": "Quantum numbers of mixer input files are checked", "statement": "An input file whose operator has quantum numbers J0, g0, Tz0 other than those of the target is refused.", "quantifier": "all input files", "why_tests_cant": "The sectors which both operators have are mixed without complaint.", "anchors": ["programs/h2utils/h2mixer.cpp: InputChannel::InitializeChannel, InputChannel::PopulateSourceMatrix"]}
{"id": "C68", "title": "Names of two-body sources of the mixer are unique", "statement": "Two two-body source channels with the same name are refused, as they are for one-body operators.", "quantifier": "all control files", "why_tests_cant": "The result silently depends on the order of the channels.", "anchors": ["programs/h2utils/h2mixer.cpp: main, PopulateSourceMatrix"]}
{"id": "C69", "title": "One-body linear combinations are correct", "statement": "A one-body linear-combination channel produces the sum of coefficient times operator over its terms; a term which is not defined or has other orbitals or quantum numbers stops the program.", "quantifier": "all lists of terms, all spaces", "why_tests_cant": "Any number of terms and sectors.", "anchors": ["programs/h2utils/h2mixer.cpp: OneBodyLinearCombinationChannel::ConstructOneBodyOperatorData"]}
{"id": "C70", "title": "A one-body linear combination cannot refer to itself", "statement": "A linear combination one of whose terms has the name of the combination itself is refused as undefined.", "quantifier": "all control files", "why_tests_cant": "The new operator is put into the map before its terms are looked up.", "anchors": ["programs/h2utils/h2mixer.cpp: OneBodyLinearCombinationChannel::ConstructOneBodyOperatorData"]}
{"id": "C71", "title": "Orbital generation ends", "statement": "The triangular orbital generator ends for every pair of nonnegative weight coefficients and every cutoff.", "quantifier": "all nonnegative a,b and cutoffs", "why_tests_cant": "Non-termination cannot be observed by a finite test.", "anchors": ["programs/obutils/orbital-gen.cpp: main, triangular truncation"]}
{"id": "C72", "title": "Text H2 files keep single precision", "statement": "A finite single-precision matrix element written to a text H2 file reads back as the same float.", "quantifier": "all finite floats", "why_tests_cant": "Eight significant digits distinguish most floats but not all (nine are needed); the failures are thinly spread over the 2^32 values.", "anchors": ["libraries/tbme/h2_io_v0.cpp:436", "libraries/tbme/h2_io_v15099.cpp:674", "libraries/tbme/h2_io_v15200.cpp:520"]}
{"id": "C73", "title": "Navratil-format relative files are read correctly", "statement": "After a file of lines n' L' n L S J Tz me of a Hermitian interaction, the isospin components branch to the matrix elements of the file for pp (Tz=-1), pn (0) and nn (+1) between T=1 states, and are those with Tz=0 between T=0 states; bra and ket may be given in either order, later lines replace earlier ones, and the other elements are zero.", "quantifier": "all spaces, sector lists and files of valid lines", "why_tests_cant": "All orders of bra and ket, channels and charges would have to be tried.", "anchors": ["libraries/relative/pn_io.cpp: ReadPNOperator, ReadPNOperatorPN"]}
{"id": "C74", "title": "Invalid lines of Navratil files are refused", "statement": "A line which cannot be read, whose labels are not in the space, whose Tz is not -1, 0 or 1, or which changes the parity ends the program with an error.", "quantifier": "all files", "why_tests_cant": "Undefined behaviour may look like success.", "anchors": ["libraries/relative/pn_io.cpp: ReadPNOperator"]}
{"id": "C75", "title": "pn2rel checks its arguments", "statement": "pn2rel with fewer than four arguments ends with the usage message.", "quantifier": "all argument lists", "why_tests_cant": "The test argc<3 does not match the use of argv[4]; undefined behaviour may look like success.", "anchors": ["programs/relutils/pn2rel.cpp: main"]}
{"id": "C76", "title": "Blocks outside the relative space are refused", "statement": "A block of an interaction file with J above the maximum of the target space, with orbital angular momenta of different parity, or of a subspace absent from the target space makes reading fail, whatever precedes and follows it.", "quantifier": "all files of well-formed blocks followed by such a block", "why_tests_cant": "Position of the bad block in the file and all spaces.", "anchors": ["libraries/relative/jpv_io.cpp: ReadJPVOperator"]}
{"id": "C77", "title": "Density elements outside the space are refused", "statement": "An element of a density file whose labels are not those of states of the orbital space, whose multipole is outside the announced range, whose class is neither proton nor neutron, or whose orbital numbers are outside the list of orbitals makes reading fail, wherever it is in the file.", "quantifier": "all files, spaces and selection rules", "why_tests_cant": "Position of the bad element and all label combinations.", "anchors": ["libraries/density/obdme_io.cpp: InOBDMEStreamMulti::ReadData", "libraries/density/obdme_io.cpp: InOBDMEStreamSingle::ReadData1520"]}
{"id": "C78", "title": "Oscillator brackets are those of r1^2 = (r^2 + R^2)/2 + r.R", "statement": "For brackets allowed by the selection rules with n1 > 0 the values returned satisfy the relation obtained from r1^2 = (r^2 + R^2)/2 + r.R between ket states with n1-1 and n1 nodes, where r.R is the scalar product of two vector operators with the oscillator elements of radial_oscillator_me.h; with n1 = 0 < n2 exchanging the particles gives the phase of reversing r and the coupling order; with n1 = n2 = 0 the value is the Brody-Moshinsky sum, and the brackets of up to two quanta with a single term have their known values.", "quantifier": "all quantum numbers with 2 quanta + 1 <= 170, all 6j functions", "why_tests_cant": "Infinite family of brackets; tests compare selected values.", "anchors": ["libraries/moshinsky/moshinsky_bracket.cpp: MoshinskyBracket", "libraries/moshinsky/moshinsky_bracket.cpp: SeedMoshinskyBracket"]}
{"id": "C79", "title": "H2 files have the documented layout", "statement": "The files written are those of the format descriptions in doc/h2: for each version the header fields in the documented order and width (record structure in binary versions 0 and 15099), with the numbers of elements and maximal angular momenta the operator has; then in binary version 15200 the elements of all sectors without separators, in text one line per element with its labels.", "quantifier": "all indexings with canonical sectors, all complete histories of writes", "why_tests_cant": "Layouts depend on unbounded orbital sets; a consistent error in reader and writer passes every round-trip test.", "anchors": ["libraries/tbme/h2_io_v15200.cpp: WriteHeader_Version15200", "libraries/tbme/h2_io_v15099.cpp: WriteHeader_Version15099", "libraries/tbme/h2_io_v0.cpp: WriteHeader_Version0", "doc/h2"]}
{"id": "C80", "title": "Readers check what H2 headers announce", "statement": "From a header of documented layout with arbitrary fields the stream takes exactly the orbitals, cutoffs and quantum numbers listed; it opens if and only if the numbers of elements announced (and in version 15099 the maximal angular momenta, in version 0 two species) are those of the sectors; version 15099 refuses nonzero Tz0.  Reading a sector beyond the last is refused, and writes in mode kMatrix are checked like others.", "quantifier": "all header contents of the documented shape, all continuations of the file", "why_tests_cant": "Tests use files the code wrote itself.", "anchors": ["libraries/tbme/h2_io_v15200.cpp: ReadHeader_Version15200", "libraries/tbme/h2_io_v15099.cpp: ReadHeader_Version15099", "libraries/tbme/h2_io_v0.cpp: ReadHeader_Version0", "libraries/tbme/h2_io.cpp: SeekToSector"]}
{"id": "C81", "title": "Writers and readers keep to the restrictions of the H2 format descriptions", "statement": "Version 15099 is used only for Tz0 = 0 and version 0 only for oscillator orbitals, version 15200 only with Tz0 >= 0 and with the announced numbers of proton and neutron orbitals, and the binary header shown in the description of version 0 can be read.", "quantifier": "all indexings handed to the writers, all headers handed to the readers", "why_tests_cant": "Concerns inputs outside those of the test programs.", "anchors": ["libraries/tbme/h2_io_v15099.cpp: WriteHeader_Version15099", "libraries/tbme/h2_io_v0.cpp: WriteHeader_Version0", "libraries/tbme/h2_io_v15200.cpp: ReadHeader_Version15200", "doc/h2/h2v0/h2v0-format-description-130614.txt"]}
{"id": "C82", "title": "Tensor products of one-body operators", "statement": "The reduced matrix element of the product of two one-body spherical tensor operators is the sum over all intermediate states of the product of reduced matrix elements times the recoupling factor, in every sector of the result; no sector is missing when the recoupling factor vanishes outside the triangle; ranks, parities and charges that the product does not have are refused; for scalar operators the product is the matrix product.", "quantifier": "all spaces, operators, quantum numbers, recoupling factors", "why_tests_cant": "Sums over intermediate subspaces of unbounded spaces; a lost subspace shows only for particular operators.", "anchors": ["libraries/obme/obme.cpp: OneBodyOperatorTensorProduct", "programs/obutils/obmixer.cpp: OneBodyTensorProductChannel"]}
{"id": "C83", "title": "Angular momentum and isospin operators", "statement": "The generated operators l, s, j have the reduced matrix element of the angular momentum between states of equal n and none between states of different n; l2, s2, j2 are diagonal with l(l+1), 3/4, j(j+1); tz is diagonal with +1/2 for protons and -1/2 for neutrons, t+ and t- connect states that differ in species only, are adjoint to each other and satisfy [t+,t-] = 2 tz.", "quantifier": "all orbital spaces", "why_tests_cant": "Tests use full oscillator truncations in which state indices and n coincide.", "anchors": ["libraries/obme/obme.cpp: AngularMomentumOneBodyOperator", "libraries/obme/obme.cpp: AngularMomentumSquaredOneBodyOperator", "libraries/obme/obme.cpp: IsospinOneBodyOperator"]}
{"id": "C84", "title": "Solid harmonics generated by obmixer", "statement": "A kinematic operator of obmixer has the elements b^n times radial element times angular factor, and a solid harmonic of rank J0 the same elements times sqrt(2 J0 + 1)/sqrt(4 pi), whatever the name of the operator; the documented names are the ones accepted.", "quantifier": "all bases, length parameters, orders, ranks, names", "why_tests_cant": "Normalisation of operators with power different from the rank and of operators with unlucky names is not covered by comparing a few files.", "anchors": ["libraries/obme/obme.cpp: SolidHarmonicOneBodyOperator", "programs/obutils/obmixer.cpp: OneBodyGeneratedChannel"]}
{"id": "C85", "title": "Operators written by obmixer on another space", "statement": "When the target space differs from that of the operator, the file written holds for every pair of states the element between the same orbitals, and 0 for orbitals the operator does not have.", "quantifier": "all operators and target spaces", "why_tests_cant": "Requires agreement of two unbounded orbital sets.", "anchors": ["programs/obutils/obmixer.cpp: TargetChannel::WriteChannel"]}
{"id": "C86", "title": "Linear combinations in obmixer", "statement": "A linear combination is the sum of the operators named, with their coefficients; operators that do not fit (other space, other quantum numbers, the combination itself, a name already used) are refused.", "quantifier": "all maps of operators, all lists of terms", "why_tests_cant": "Wrong inputs that are accepted produce plausible files.", "anchors": ["programs/obutils/obmixer.cpp: OneBodyLinearCombinationChannel"]}
{"id": "C87", "title": "Electric and weak targets of ew-gen", "statement": "The E target of rank lambda has the elements b^lambda times those of the input for the species requested and 0 for the other; F has those of t+; GT those of the product of s and t+; inputs on another space, of another rank or missing are refused.", "quantifier": "all spaces, ranks, inputs", "why_tests_cant": "Needs inputs of all ranks, including wrong ones.", "anchors": ["programs/obutils/ew-gen.cpp: GenerateTargetE", "programs/obutils/ew-gen.cpp: GenerateTargetWeak"]}
{"id": "C88", "title": "Magnetic targets of ew-gen", "statement": "Dl and Ds of rank lambda are sqrt(lambda (2 lambda + 1)) b^(lambda-1) times the product of l or s with the solid harmonic of rank lambda - 1, for Dl also times 2/(lambda+1).", "quantifier": "all spaces, ranks, inputs", "why_tests_cant": "Only the dipole case is commonly run; there the wrong factor is right.", "anchors": ["programs/obutils/ew-gen.cpp: CalculatePrefactorM", "programs/obutils/ew-gen.cpp: GenerateTargetM"]}
{"id": "C89", "title": "Relative operators on relative-cm states", "statement": "The relative-cm matrix element is the sum over relative angular momenta of the recoupling coefficients times the relative element with the centre of mass as spectator, whichever triangle the relative element is stored in.", "quantifier": "all relative operators, ranks, isospin components, relative-cm spaces", "why_tests_cant": "A stored triangle taken for the other one only shows in off-diagonal elements of non-scalar operators, for which no reference results exist.", "anchors": ["libraries/moshinsky/moshinsky_xform.cpp: RelativeCMMatrixLSJTN", "libraries/moshinsky/moshinsky_xform.cpp: TransformOperatorRelativeLSJTToRelativeCMLSJTN"]}
{"id": "C90", "title": "Moshinsky transformation", "statement": "The antisymmetrized two-body matrix element is twice the sum over all relative-cm states allowed by antisymmetry of bracket, relative-cm element and bracket.", "quantifier": "all operators, relative-cm spaces, two-body spaces whose labels are among them", "why_tests_cant": "Wrong pairing of subspaces or missing states shows only in some sectors of large spaces.", "anchors": ["libraries/moshinsky/moshinsky_xform.cpp: TransformationMatrixRelativeCMTwoBodyLSJTN", "libraries/moshinsky/moshinsky_xform.cpp: TwoBodyMatrixLSJTN", "libraries/moshinsky/moshinsky_xform.cpp: TransformOperatorRelativeCMLSJTNToTwoBodyLSJTN"]}
{"id": "C91", "title": "Recoupling to jj", "statement": "The jj-coupled matrix element is the sum over the LS couplings of both states of unitary 9j coefficients times the LS element, also where only the other triangle is stored; no coupling is lost when the LS space has all states of ordered orbitals.", "quantifier": "all operators, LS spaces, jj spaces", "why_tests_cant": "A coupling that is lost because the orders of orbitals differ changes few matrix elements.", "anchors": ["libraries/moshinsky/moshinsky_xform.cpp: TransformationMatrixTwoBodyLSJTNToTwoBodyJJJTN", "libraries/moshinsky/moshinsky_xform.cpp: TwoBodyMatrixJJJTN", "libraries/moshinsky/moshinsky_xform.cpp: TransformOperatorTwoBodyLSJTNToTwoBodyJJJTN"]}
{"id": "C92", "title": "Relative to two-body transformation", "statement": "For a relative operator that satisfies the hermiticity of its reduced elements, the program stores the composition of the recouplings in every sector of the jj space; the conventions of Rose satisfy what is assumed of the coefficients.", "quantifier": "all relative operators, spaces, ranks, isospin components", "why_tests_cant": "The steps use different storage conventions which must agree in every sector.", "anchors": ["programs/relutils/moshinsky.cpp: main", "libraries/moshinsky/moshinsky_xform.cpp"]}
{"id": "C93", "title": "The identity is transformed into the identity", "statement": "With unitary coefficients of the right exchange symmetries, the relative identity becomes the two-body operator with 1 for a pair of different orbitals, 2 for a pair of equal orbitals, and 0 between different states.", "quantifier": "all spaces, quanta, isospin components", "why_tests_cant": "The check by hand is done for small spaces; a missing antisymmetrization factor cancels in some sectors.", "anchors": ["libraries/moshinsky/moshinsky_xform.cpp", "programs/relutils/moshinsky.cpp: main"]}
{"id": "C94", "title": "Relative dipole operator", "statement": "The operator stored for dipole r is (tau1 - tau2) times the relative coordinate: every stored reduced element is that of the coordinate vector.", "quantifier": "all relative spaces, operator labels, values of the recoupling coefficients", "why_tests_cant": "A wrong direction factor in one of two branches needs an independent reference for off-diagonal reduced elements; the branch with the right factor is never stored.", "anchors": ["libraries/relative/relative_me.cpp: ConstructDipoleOperator"]}
{"id": "C95", "title": "Relative dipole operator of the momentum", "statement": "The operator stored for dipole k is (tau1 - tau2) times the relative wave vector (times i).", "quantifier": "all relative spaces, operator labels, direction factors and units", "why_tests_cant": "The magnitudes are those of the momentum; only relative signs between radial quantum numbers differ.", "anchors": ["libraries/relative/relative_me.cpp: ConstructDipoleOperator", "libraries/relative/relative_me.cpp: RadialCoordinateMatrix"]}
{"id": "C96", "title": "Relative angular momentum and isospin operators", "statement": "orbital-am, spin-am and isospin store every element of L or (tau1+tau2) L, of S or s1 tau1 + s2 tau2, and of T; L + S is J; labels that do not fit are refused.", "quantifier": "all relative spaces, operator labels, isospin components", "why_tests_cant": "The isovector operators connect subspaces that differ in spin and isospin, which needs all combinations.", "anchors": ["libraries/relative/relative_me.cpp: ConstructOrbitalAMOperator", "libraries/relative/relative_me.cpp: ConstructSpinAMOperator", "libraries/relative/relative_me.cpp: ConstructIsospinOperator"]}
{"id": "C97", "title": "SU(4) Casimir operator", "statement": "su4casimir stores the Casimir operator of two nucleons, and the documented combination with the identity gives the Casimir operator of A nucleons.", "quantifier": "all relative spaces, all A >= 2", "why_tests_cant": "The combination with A must hold for every A.", "anchors": ["libraries/relative/relative_me.cpp: ConstructSU4CasimirOperator", "libraries/relative/relative_me.h: ConstructSU4CasimirOperator"]}
{"id": "C98", "title": "Relative quadrupole operator", "statement": "The operator stored for quadrupole r is one half of r^2 Y_2 (times tau1 + tau2) in every sector of a space ordered by L; the momentum version is refused.", "quantifier": "all relative spaces, isospin components, values of the Wigner coefficients", "why_tests_cant": "One of the three changes of L is filled incompletely; that it is never reached depends on the order of the subspaces.", "anchors": ["libraries/relative/relative_me.cpp: ConstructQuadrupoleOperator", "libraries/relative/relative_me.cpp: RadialCoordinateSqrMatrix"]}
{"id": "C99", "title": "Unit tensors and operator names in relative-gen", "statement": "symmunit stores one for the labelled element and zero elsewhere, and refuses labels that do not fit; every operator name makes its operator, unknown names end the program.", "quantifier": "all spaces, labels, names, parameters", "why_tests_cant": "Eleven labels in all combinations.", "anchors": ["programs/relutils/relative-gen.cpp: ReadParameters", "programs/relutils/relative-gen.cpp: PopulateOperator"]}
{"id": "C100", "title": "Natural orbitals diagonalise the density", "statement": "For every symmetric scalar density the transformation written by natorb-gen is orthogonal and diagonalises it, with occupations that descend within each subspace, sum up to the trace and are those listed in the info file.", "quantifier": "all orbital lists, all symmetric densities, every eigensolver that keeps its promise", "why_tests_cant": "Eigenvalues and eigenvectors are reversed separately and stored sector by sector; a slip shows only for particular matrices.", "anchors": ["programs/obutils/natorb-gen.cpp: main"]}
{"id": "C101", "title": "natorb-gen files belong together", "statement": "The orbital file of natorb-gen holds the input orbitals sorted by weight, its transformation file has blocks that fit the input orbitals and that orbital list, and radial-xform accepts them: it turns the density into the diagonal matrix of the occupations.", "quantifier": "all orbital lists and densities", "why_tests_cant": "Blocks made for the sectors of one list are written for the sectors of another.", "anchors": ["programs/obutils/natorb-gen.cpp: main", "programs/obutils/radial-xform.cpp: main"]}
{"id": "C102", "title": "Occupations are listed for the right orbitals", "statement": "The occupation that the info file of natorb-gen gives for n l j is that of the orbital n l j of the transformation file.", "quantifier": "all orbital lists with weights, all densities", "why_tests_cant": "The usual weights grow with n.", "anchors": ["programs/obutils/natorb-gen.cpp: main"]}
{"id": "C103", "title": "Control file of natorb-gen", "statement": "natorb-gen reads its control file or ends with a message: its files are written only for a density read for the orbitals given.", "quantifier": "all control files", "why_tests_cant": "Tests use correct control files.", "anchors": ["programs/obutils/natorb-gen.cpp: ReadParameters"]}
{"id": "C104", "title": "radial-compose", "statement": "radial-compose refuses files that are not overlaps or do not fit, and otherwise writes the product of the full matrices.", "quantifier": "all pairs of files", "why_tests_cant": "Tests use two proper files of overlaps.", "anchors": ["programs/obutils/radial-compose.cpp: main"]}
{"id": "C105", "title": "radial-xform", "statement": "radial-xform refuses files that do not fit and otherwise writes U^T O U for every pair of states; the inverse transformation gives the operator back.", "quantifier": "all orbital lists, operators of any rank, transformations", "why_tests_cant": "A missing sector would only show for particular spaces.", "anchors": ["programs/obutils/radial-xform.cpp: main"]}
{"id": "C106", "title": "Oscillator functions by recurrence: closed form", "statement": "OscillatorWaveFunctions<+1> returns nmax+1 arrays whose values at r > 0 are r^power_shift times the normalized radial oscillator function (associated Laguerre polynomial, Gaussian, power, norm) of n, l and length b; at r = 0 they vanish and at infinity they are not numbers.", "quantifier": "all nmax, l, b > 0, real power shifts, all arrays of coordinates", "why_tests_cant": "A test compares finitely many n, l and r with tabulated values.", "anchors": ["libraries/quadrature/oscillator_wf.h: OscillatorWaveFunctions, OscillatorWaveFunctionRecurrence0, 1, N, UnitlessCoordSqr"]}
{"id": "C107", "title": "Oscillator functions are orthonormal", "statement": "With tgamma having the values of the gamma function at l + 3/2, the functions computed for one l and b are orthonormal on the half line, also when one carries r^s and the other r^-s.", "quantifier": "all n, m, l, b > 0, s", "why_tests_cant": "Numerical orthonormality is tested for few n within a tolerance.", "anchors": ["libraries/quadrature/oscillator_wf.h: OscillatorWaveFunctions"]}
{"id": "C108", "title": "Momentum functions", "statement": "OscillatorWaveFunctions<-1> returns the momentum functions (-1)^n R_nl(k) of length 1/b; they are orthonormal.", "quantifier": "all n, l, b > 0", "why_tests_cant": "The momentum branch is instantiated nowhere in the repository.", "anchors": ["libraries/quadrature/oscillator_wf.h: OscillatorWaveFunctionRecurrenceN"]}
{"id": "C109", "title": "Mesh of the radial integrals", "statement": "The mesh is uniform on [0,1]; the coordinate is increasing onto [0,infinity) with the Jacobian as derivative, so that integrals are unchanged; replacing the values at the ends that are not finite makes the integrand of relative_xform continuous there, and its integral is the overlap of the functions of the two lengths.", "quantifier": "all numbers of steps, lengths, L and n", "why_tests_cant": "Tests see values within the error of the quadrature.", "anchors": ["libraries/quadrature/mesh.h: UniformMesh, TransformedCoordinate, TransformedCoordinateJacobian, FixEndpointSingularitiesToZero", "libraries/relative/relative_xform.cpp: TransformRelativeOperatorLSJT"]}
{"id": "C110", "title": "Analytic oscillator elements are the radial integrals", "statement": "The closed formulas for reduced elements of r, ik, r^2 and (ik)^2 between oscillator functions equal the radial integrals of r/b, d/dr with centrifugal term, their squares (apart from the decimal for sqrt 2).", "quantifier": "all n, m, all l, all b > 0", "why_tests_cant": "Tests compare some elements with quadrature.", "anchors": ["libraries/analytic/radial_oscillator_me.h: CoordinateOscillatorMatrixElement, CoordinateSqrOscillatorMatrixElement"]}
{"id": "C111", "title": "A single oscillator function", "statement": "OscillatorWaveFunction returns the entry n of OscillatorWaveFunctions, point by point, also for a plain double.", "quantifier": "all n, l, b, arrays and numbers", "why_tests_cant": "Exchanging an uninitialised double goes unnoticed in a test.", "anchors": ["libraries/quadrature/oscillator_wf.h: OscillatorWaveFunction"]}
{"id": "C112", "title": "N2LO Gamow-Teller operator", "statement": "Every stored element of ConstructN2LOGTOperator is the sum of central and tensor pion-exchange terms and contact term, with radial integrals by quadrature on the mesh, and blocks on the diagonal are symmetric.", "quantifier": "all spaces, regulators R=0.9 and 1.0 fm, oscillator lengths and numbers of points above 1", "why_tests_cant": "There are no reference values; a sign or factor in one term is hidden in the sum.", "anchors": ["libraries/relative/lenpic_relative_me.cpp: ConstructN2LOGTOperator", "libraries/relative/lenpic_constants.h"]}
{"id": "C113", "title": "Radial integrals of the chiral operators", "statement": "The functions on the mesh are continuous with the values 0 that replace the ends, and their integral over z is the convergent radial integral.", "quantifier": "all l, n, lengths, and regulators (without regulator where the integral is used)", "why_tests_cant": "A singular end shows as a slow error of the quadrature only.", "anchors": ["libraries/relative/lenpic_relative_me.cpp:148-330", "libraries/relative/lenpic_relcm_me.cpp:93-260"]}
{"id": "C114", "title": "LO Gamow-Teller operator", "statement": "ConstructLOGTOperator stores -gA times the reduced elements of s1 tau1 + s2 tau2, zero in other isospin components.", "quantifier": "all spaces", "why_tests_cant": "Tests fix a space.", "anchors": ["libraries/relative/lenpic_relative_me.cpp: ConstructLOGTOperator"]}
{"id": "C115", "title": "Refused input of the chiral operators", "statement": "Unknown regulators, operator labels other than J0=1, g0=0, T0=1 included, negative numbers of points end the program; the number of points in the input of relative-gen is used.", "quantifier": "all inputs", "why_tests_cant": "Errors are not tested.", "anchors": ["libraries/relative/lenpic_constants.h: SCS_cD", "programs/relutils/relative-gen.cpp:304-310,563-577"]}
{"id": "C116", "title": "NLO M1 operator", "statement": "Every stored element of ConstructNLOM1Operator is the sum of intrinsic and centre-of-mass dependent terms with radial integrals by quadrature; sectors with the same isospin, which are skipped, and elements skipped by selection rules vanish.", "quantifier": "all spaces, regulators, lengths and numbers of points above 1", "why_tests_cant": "There are no reference values, and skipped elements look like zeros.", "anchors": ["libraries/relative/lenpic_relcm_me.cpp: ConstructNLOM1Operator"]}
{"id": "C117", "title": "Input of relcm-gen", "statement": "relcm-gen refuses unknown operators and unreadable parameters, and computes the operator with regulator, length and number of steps of its input.", "quantifier": "all inputs", "why_tests_cant": "The integral hardly depends on the number of steps.", "anchors": ["programs/relutils/relcm-gen.cpp:110-192"]}
{"id": "C118", "title": "Elements do not depend on the unit of length", "statement": "If lengths are multiplied by s, masses divided by s and low-energy constants scaled with their dimensions, the elements of the N2LO GT and NLO M1 operators stay the same.", "quantifier": "all s > 0 and all parameters", "why_tests_cant": "The unit is fixed in the code.", "anchors": ["libraries/relative/lenpic_relative_me.cpp:170-192,310-336", "libraries/relative/lenpic_relcm_me.cpp:427-432"]}
{"id": "C119", "title": "The contact term acts in S waves", "statement": "The contact term of the N2LO GT operator has elements between states with L = L' = 0 only.", "quantifier": "all L, L'", "why_tests_cant": "There are no reference values.", "anchors": ["libraries/relative/lenpic_relative_me.cpp:310-336"]}
{"id": "C120", "title": "Control files of radial-gen", "statement": "Each line of the control file sets the ket basis or defines exactly the target that the documentation describes (mode, power, tensor rank, parity, charge, files, basis types, scale factor); every other line ends the program.", "quantifier": "all control files and all file systems", "why_tests_cant": "There are unboundedly many control files; the wrong ones are hardly ever written down.", "anchors": ["programs/obutils/radial-gen.cpp:8-30", "programs/obutils/radial-gen.cpp:96-132", "programs/obutils/radial-gen.cpp:162-327"]}
{"id": "C121", "title": "One-body operator files of radial-gen", "statement": "The file of an operator target holds the reduced elements between the orbitals of the orbital file: radial element of the coordinate to the power (unit operator, oscillator formulas or numerical integral) times the reduced element of the spherical harmonic, with sqrt((2 order+1)/(4 pi)) for solid harmonics; angular momenta, their squares and isospin diagonal in n; radial files without angular factor.", "quantifier": "all orbital files, bases, coordinates and powers", "why_tests_cant": "Tests compare few elements in one space.", "anchors": ["programs/obutils/radial-gen.cpp:329-436", "libraries/obme/radial.cpp:17-107"]}
{"id": "C122", "title": "Overlap files of radial-gen", "statement": "The file of a transformation target holds the overlaps between bra and ket orbitals of equal species, l and j: Kronecker deltas for equal bases and scale 1, the numerical integral with the stretched ket function otherwise; radial-extract and radial-plot accept it.", "quantifier": "all pairs of orbital files, bases and scale factors", "why_tests_cant": "Spaces, bases and scale factors combine without bound.", "anchors": ["programs/obutils/radial-gen.cpp:405-436", "libraries/obme/radial.cpp:109-180"]}
{"id": "C123", "title": "radial-gen writes the file of each target", "statement": "The program ends well exactly if each target can be built, and afterwards the last target of each name determines the file of that name, built from the orbital files as they were; other files are unchanged.", "quantifier": "all control files and file systems", "why_tests_cant": "Interference between targets appears only for special combinations of names.", "anchors": ["programs/obutils/radial-gen.cpp:329-465"]}
{"id": "C124", "title": "radial-extract lists the columns of the transformation", "statement": "For each state of the ket space in order there is one line with n, l, j, Tz, the number of bra states and the amplitudes of the bra states with the same l, j, Tz.", "quantifier": "all transformation files", "why_tests_cant": "There is no test.", "anchors": ["programs/radialutils/radial-extract.cpp:52-142"]}
{"id": "C125", "title": "radial-plot tabulates the transformed functions", "statement": "The table holds r and, for each state of the subspace asked for, the sum of the basis functions at r times their amplitudes, at equally spaced points from 0 to r_max.", "quantifier": "all transformation files and arguments", "why_tests_cant": "There is no test.", "anchors": ["programs/radialutils/radial-plot.cpp:66-205"]}
{"id": "C126", "title": "Control file of h2mixer", "statement": "A control file is accepted exactly if every line is one of the eleven kinds with the arguments it needs and every term follows something to add it to. The last setting of each kind holds, channels and targets are kept in order, and terms belong to the combination or target before them.", "quantifier": "all control files", "why_tests_cant": "Combinations and orders of lines are unbounded.", "anchors": ["programs/h2utils/h2mixer.cpp:707-987"]}
{"id": "C127", "title": "Faulty lines of the control file are refused", "statement": "h2mixer refuses lines with missing arguments and second definitions of a name, and blanks at the end of a line have no effect.", "quantifier": "all control files", "why_tests_cant": "Faulty control files are not tested.", "anchors": ["programs/h2utils/h2mixer.cpp:763-775", "programs/h2utils/h2mixer.cpp:805-813"]}
{"id": "C128", "title": "Target space of h2mixer", "statement": "The target has the orbitals that the control file asks for last, oscillator orbitals up to the cutoff or those of the file that are within the one-body truncation, with the states of the two-body truncation and the sectors of the multipolarity asked for.", "quantifier": "all control files and orbital files", "why_tests_cant": "Several indexing lines are not tested.", "anchors": ["programs/h2utils/h2mixer.cpp:1420-1455"]}
{"id": "C129", "title": "One-body channels of h2mixer", "statement": "The channels in the order of the control file make the operators they define: the file, the generated operator, the linear combination, the tensor product, the transformed operator; every operator used is well defined.", "quantifier": "all control files, files and orbital spaces", "why_tests_cant": "Combinations of channels are unbounded.", "anchors": ["programs/h2utils/h2mixer.cpp:238-466", "programs/h2utils/h2mixer.cpp:998-1415"]}
{"id": "C130", "title": "h2mixer from the control file to the targets", "statement": "For a control file with usable sources and targets, h2mixer writes for each target the linear combination, with the coefficients given, of the elements of its sources, rounded as the format does.", "quantifier": "all control files, files and target spaces", "why_tests_cant": "The program is tested on a few control files, if at all.", "anchors": ["programs/h2utils/h2mixer.cpp:707-2092"]}
{"id": "C131", "title": "Control file of obscalc-ob", "statement": "A line of the control file is carried out as its keyword and arguments say; any other line, including lines with a mode other than append or truncate or an angular momentum that is neither integer nor half-integer, ends the program.", "quantifier": "all lines and all states of the run", "why_tests_cant": "Lines are arbitrary; the wrong ones are not tested.", "anchors": ["programs/obutils/obscalc-ob.cpp:115-190"]}
{"id": "C132", "title": "Density files belong to the statement that names them", "statement": "Density files of versions 1405, 1500 and 1520 are read as the density between the states of the statement, and files with other quantum numbers, other orbitals or incomplete headers are refused.", "quantifier": "all density files, statements and orbital spaces", "why_tests_cant": "Files with wrong or missing numbers are unbounded in number.", "anchors": ["libraries/density/obdme_io.cpp:51-542", "libraries/density/obdme_io.h:40-200"]}
{"id": "C133", "title": "Report of obscalc-ob", "statement": "For each operator and each pair of states between which selection rules, 3j coefficient and multipoles of the density allow an element, obscalc-ob writes the reduced matrix element, the sum over orbitals of operator elements times density, in the order of the control file; operators without lines have no section.", "quantifier": "all control files, operator files and density files", "why_tests_cant": "The sum runs over arbitrary spaces and files.", "anchors": ["programs/obutils/obscalc-ob.cpp:193-334"]}
{"id": "C134", "title": "One orbital space per run of obscalc-ob", "statement": "Densities are read and summed over the orbitals of the run; a control file in which the orbitals are missing or change after densities were read is refused.", "quantifier": "all control files", "why_tests_cant": "Orders of statements are not tested.", "anchors": ["programs/obutils/obscalc-ob.cpp:140-187", "programs/obutils/obscalc-ob.cpp:225-250"]}
{"id": "C135", "title": "Output file of obscalc-ob", "statement": "A control file that names no output file is refused.", "quantifier": "all control files", "why_tests_cant": "The behaviour is undefined and depends on the compiler.", "anchors": ["programs/obutils/obscalc-ob.cpp:105-112", "programs/obutils/obscalc-ob.cpp:270-285"]}
{"id": "C136", "title": "Control file of obmixer", "statement": "Every line in the format described in the header comment of obmixer is accepted with its meaning: the last basis and the last length parameter hold for the whole run, channels keep their order, terms belong to the linear combination before them; every other line ends the program.", "quantifier": "all control files", "why_tests_cant": "The lines that are refused or misread are not those of the examples.", "anchors": ["programs/obutils/obmixer.cpp:13-35", "programs/obutils/obmixer.cpp:425-649"]}
{"id": "C137", "title": "Files written by obmixer", "statement": "For each target, in the order of the control file, obmixer writes a file on the orbitals of the run with the elements of the operator defined by its channel, and zero for orbitals that the operator does not have.", "quantifier": "all control files, orbital files and operator files", "why_tests_cant": "Operators are combined from arbitrary channels on different spaces.", "anchors": ["programs/obutils/obmixer.cpp:657-1269"]}
{"id": "C138", "title": "Incomplete control files of obmixer", "statement": "A control file with a repeated name, a missing file, operator or transformation, a linear combination without terms, or no basis is refused.", "quantifier": "all control files", "why_tests_cant": "Some of these are accepted, and one of them is undefined behaviour.", "anchors": ["programs/obutils/obmixer.cpp:657-1269"]}
{"id": "C139", "title": "Control file of ew-gen", "statement": "ew-gen accepts exactly the lines of its input format, comments and blank lines, reads the file of each source, and keeps for each operator one source; anything else ends the program.", "quantifier": "all control files and disks", "why_tests_cant": "Control files are unbounded sequences of lines, and repeated definitions interact.", "anchors": ["programs/obutils/ew-gen.cpp:9-24", "programs/obutils/ew-gen.cpp:176-304"]}
{"id": "C140", "title": "Files written by ew-gen", "statement": "For each target, in the order of the control file, ew-gen writes a file on the orbitals of the run with the elements of the electric, magnetic or weak operator, from the sources it needs and nothing else.", "quantifier": "all control files, orbitals and operator files", "why_tests_cant": "The elements depend on arbitrary operators on arbitrary orbitals.", "anchors": ["programs/obutils/ew-gen.cpp:563-606"]}
{"id": "C141", "title": "Incomplete control files of ew-gen", "statement": "A target without one of its sources, with a source on other orbitals, without orbitals or without a scale factor is refused.", "quantifier": "all control files", "why_tests_cant": "One of these is undefined behaviour that usually goes unnoticed.", "anchors": ["programs/obutils/ew-gen.cpp:164-172", "programs/obutils/ew-gen.cpp:385-606"]}
{"id": "C142", "title": "moshinsky: input", "statement": "The input of moshinsky is accepted exactly if its first three lines give the truncation rank ob or tb and an integer cutoff; a source file and one of the couplings rel, relcm, lsjt, jjjt, jjjpn; a target file and one of these couplings, followed for jjjpn by an integer H2 format and an integer Tz0. The parameters are then those of the lines; further words and lines are ignored, and everything else ends the program.", "quantifier": "for all lists of lines of words", "why_tests_cant": "Tests read a few inputs; what is refused and what is ignored is about all inputs.", "anchors": ["programs/relutils/moshinsky.cpp:68-177"]}
{"id": "C143", "title": "moshinsky: which transformations exist", "statement": "A run that ends with success was one of seven combinations of source and target coupling: from rel to relcm, lsjt, jjjt, jjjpn, or from relcm to lsjt, jjjt, jjjpn. It read the source in its coupling, and what it wrote is the target file in the target coupling, with a known H2 format. All other combinations end the program with failure, whatever the files are.", "quantifier": "for all parameters, file contents and behaviours of the basis library", "why_tests_cant": "The decisions are spread over several hundred lines; a test shows single combinations with particular files.", "anchors": ["programs/relutils/moshinsky.cpp:418-717"]}
{"id": "C144", "title": "moshinsky: the file as a whole", "statement": "For a hermitian relative operator stored on a complete relative space with enough quanta, the run from rel to jjjpn writes an H2 file with one block for every sector, in order, whose matrix elements are those of the antisymmetrized two-body operator: recoupling with the centre-of-mass motion, Moshinsky transformation, LS to jj, and the Wigner-Eckart theorem in isospin, with elements below the tolerance replaced by zero and the lower triangle of diagonal sectors empty. The same holds from a relative-cm operator; the targets relcm, lsjt and jjjt hold the operators of the steps in between.", "quantifier": "for all operators, labels, coefficients with the stated symmetries, truncations, and spaces of the basis library as documented", "why_tests_cant": "A numerical test compares a few files; that all steps fit together (order of spaces, hermitian conjugates, phases, triangles, components) is about all operators and spaces.", "anchors": ["programs/relutils/moshinsky.cpp:418-717", "libraries/moshinsky/moshinsky_xform.cpp:18-1118"]}
{"id": "C145", "title": "moshinsky: failures are reported", "statement": "If the run ends with success the target file was written, and if files or parameters do not fit the program ends in a defined way. False: a target in lsjt or jjjt coupling which cannot be opened is not reported, and a relative-cm source with too few quanta leads to the use of an index that does not exist. True: an unknown format never ends with success; a negative Tz0 for which there are sectors fails an assertion, which is after the output file has been opened.", "quantifier": "for all parameters and files; counterexamples for the false parts", "why_tests_cant": "The failures concern inputs nobody would put into a test of correct operation.", "anchors": ["programs/relutils/moshinsky.cpp:225-291", "programs/relutils/moshinsky.cpp:501-554", "programs/relutils/moshinsky.cpp:655-703"]}
{"id": "C146", "title": "relative-gen: input", "statement": "The four lines of the input give the operator labels, Nmax, the operator with its parameters and the target file; input is read if and only if it means something by these rules, in which case Jmax is Nmax+1, or at most 6 for Daejeon16, and all other input ends the program.", "quantifier": "for all inputs", "why_tests_cant": "Inputs are unbounded, and each operator has parameters of its own.", "anchors": ["programs/relutils/relative-gen.cpp:188-324"]}
{"id": "C147", "title": "relative-gen: the program as a whole", "statement": "For an operator which suits the labels, the file written holds the matrix elements of that operator in all sectors of all isospin components of the relative space of the truncation, and zeros in the other components. A run that ends with success was for a known operator with suitable labels; unknown operators and interactions that are not compiled in end the program.", "quantifier": "for all inputs, coefficients with the stated properties, and relative spaces as documented", "why_tests_cant": "Sixteen operators, all truncations and all labels.", "anchors": ["programs/relutils/relative-gen.cpp:330-585", "programs/relutils/relative-gen.cpp:591-623"]}
{"id": "C148", "title": "relative-gen: labels which do not suit the operator are refused", "statement": "If the labels of the operator do not include the isospin components it has, the program does not end with success. False: the Coulomb interaction of any two nucleons with labels without an isoscalar component is written as zeros; the Coulomb interaction of protons with the isoscalar component only gives two neutrons the interaction, a third of that between protons; labels with isospin 3 or -1 lead outside of the array of components.", "quantifier": "counterexamples", "why_tests_cant": "Tests use labels that suit the operator.", "anchors": ["programs/relutils/relative-gen.cpp:200-210", "programs/relutils/relative-gen.cpp:443-460", "libraries/relative/relative_me.cpp:971-1111"]}
{"id": "C149", "title": "relcm-gen: the program as a whole", "statement": "The input is read as what it means and nothing else is read; for the two-body magnetic dipole operator, the only one known, the file written holds its matrix elements in the relative-cm space of the truncation, by a quadrature of 3000 steps whatever the input says.", "quantifier": "for all inputs, coefficients with the stated properties and relative-cm spaces as documented", "why_tests_cant": "All truncations, lengths and regulators.", "anchors": ["programs/relutils/relcm-gen.cpp:66-239"]}
{"id": "C150", "title": "relative-xform: the program as a whole", "statement": "The input is read as what it means and nothing else is read. The file written has the labels and Jmax of the source, the truncation given, and holds for each pair of states of the target the double sum of overlaps and source elements over all states of the source with the same labels. With ratio one the elements are those of the source, zero above its truncation; with its truncation too the operator is unchanged. A ratio that is not positive fails an assertion.", "quantifier": "for all inputs, operators, truncations, ratios, and schedules of the threads", "why_tests_cant": "All operators and pairs of truncations.", "anchors": ["programs/relutils/relative-xform.cpp:50-186", "libraries/relative/relative_xform.cpp:1-273"]}
{"id": "C151", "title": "jpv2rel: the program as a whole", "statement": "The input is read as what it means and nothing else is read; T0_max is 0 or 2. From a file that gives all elements of an interaction the program writes the isoscalar operator with these elements. From files for two protons, two neutrons and proton and neutron it writes the operator whose components of isospin 0, 1 and 2 are those of the three interactions. A run which ends with success read every file.", "quantifier": "for all inputs, interactions symmetric under exchange of bra and ket, orders of the blocks, and relative spaces as documented", "why_tests_cant": "All interactions and orders of blocks in the files.", "anchors": ["programs/relutils/jpv2rel.cpp:43-181", "libraries/relative/jpv_io.cpp:1-403"]}
{"id": "C152", "title": "From relative operator to two-body matrix elements", "statement": "The file written by jpv2rel, relative-xform or relative-gen, read by moshinsky, leads to an H2 file whose matrix elements are the antisymmetrized two-body matrix elements of the interaction, of the transformed operator, or of the operator named.", "quantifier": "for all inputs to both programs, interactions and operators, coefficients with the stated symmetries, and spaces as documented", "why_tests_cant": "The composition of two programs through a file, for all operators and truncations.", "anchors": ["programs/relutils/jpv2rel.cpp:109-181", "programs/relutils/relative-xform.cpp:108-186", "programs/relutils/relative-gen.cpp:591-623", "programs/relutils/moshinsky.cpp:418-717"]}
{"id": "C153", "title": "jpvstat: arguments", "statement": "jpvstat prints its usage without arguments and for --help, and otherwise reads the file named by its first argument. False with more than one argument: the name stays empty, so that the file named is never read.", "quantifier": "for all argument lists and files", "why_tests_cant": "Usage errors are not tested.", "anchors": ["programs/relutils/jpvstat.cpp:42-124"]}
{"id": "C154", "title": "h2stat: command line", "statement": "h2stat prints its usage without arguments and when the first is --help; with one other argument it shows the header of the file of that name; with more, the first must begin with -- and names the mode and the second the file, and further ones are ignored. All other command lines, modes other than header, orbitals, indexing, verify and matrices, and files that do not exist end with failure; a mode without a file is never accepted.", "quantifier": "for all argument lists and files", "why_tests_cant": "Usage errors are not tested.", "anchors": ["programs/h2utils/h2stat.cpp:49-91", "programs/h2utils/h2stat.cpp:214-286"]}
{"id": "C155", "title": "h2stat: header and verification", "statement": "The modes header, orbitals and indexing show what the header of the file says. The verification scan succeeds if and only if all sectors can be read in order; it succeeds for every file the library has written, and fails for a version-15200 file cut at any byte after its header, which the default mode does not notice.", "quantifier": "for all files, indexings and operators", "why_tests_cant": "Needs a cut at every position of every file.", "anchors": ["programs/h2utils/h2stat.cpp:97-168", "libraries/tbme/h2_io.cpp:338-366"]}
{"id": "C156", "title": "h2stat: matrices", "statement": "The matrices printed are those in the file, with the lower triangle of diagonal sectors filled in by symmetry. For a file written by the library each printed element is the single-precision value stored for it.", "quantifier": "for all files, indexings and operators", "why_tests_cant": "Output of all elements of all files cannot be compared.", "anchors": ["programs/h2utils/h2stat.cpp:170-207"]}
{"id": "C157", "title": "h2stat: what verification finds", "statement": "The verification scan of a file succeeds only if the file is one the library could have written for its header. False: bytes after the last sector and altered elements are not noticed.", "quantifier": "for all files", "why_tests_cant": "Damaged files are not tested.", "anchors": ["programs/h2utils/h2stat.cpp:151-168"]}
{"id": "C158", "title": "Daejeon16: the function and its tables", "statement": "The function of the Daejeon16 interaction gives, for all quantum numbers, the element of the table that belongs to the channel, in MeV or in units of the oscillator energy and with either phase of the radial functions, and zero for everything outside the tables. The tables are symmetric, conserve parity and hold nothing but J up to 6 and 60 quanta.", "quantifier": "for all quantum numbers and options", "why_tests_cant": "38 branches with 64-row tables; only a proof by computation looks at every element.", "anchors": ["contrib/Daejeon16/Daejeon16_public_v2.f90:25-1093"]}
{"id": "C159", "title": "Daejeon16: relative operator", "statement": "The wrapper stores the interaction in every sector of the isoscalar component, on and above the diagonal, and zero in the other components; relative-gen writes this operator, with J up to 6. Labels other than those of a scalar with an isoscalar component stop the program. The return for sectors that change the spin, marked as doubtful in the code, is never reached for an operator with even parity.", "quantifier": "for all truncations, spaces, and labels", "why_tests_cant": "All spaces and truncations cannot be tried.", "anchors": ["contrib/Daejeon16/Daejeon16_wrapper.cpp:31-93", "programs/relutils/relative-gen.cpp:295-305", "programs/relutils/relative-gen.cpp:535-555"]}
{"id": "C160", "title": "Daejeon16: two-body matrix elements", "statement": "The operator written by relative-gen for Daejeon16 and read by moshinsky gives a two-body file that holds the two-body matrix elements of the interaction.", "quantifier": "for all truncations, spaces and targets", "why_tests_cant": "A chain of two programs, over all spaces.", "anchors": ["contrib/Daejeon16/Daejeon16_wrapper.cpp:31-93", "programs/relutils/moshinsky.cpp:318-720"]}
{"id": "C161", "title": "pn2rel: the file", "statement": "pn2rel writes an operator whose isospin components give, for two protons, two neutrons, and a proton and a neutron, the interactions in the input file, in all sectors of the space.", "quantifier": "for all interactions, truncations and files", "why_tests_cant": "All truncations and orders of lines cannot be tried.", "anchors": ["programs/relutils/pn2rel.cpp:31-82", "libraries/relative/pn_io.cpp:30-200"]}
{"id": "C162", "title": "pn2rel: errors", "statement": "pn2rel ends with success only if its arguments are complete and every line of its file can be read and is about states of the space; a missing file, a line with too few numbers, or a state outside the space end the program.", "quantifier": "for all arguments and files", "why_tests_cant": "Damaged files are not tested.", "anchors": ["programs/relutils/pn2rel.cpp:31-82", "libraries/relative/pn_io.cpp:30-110"]}
{"id": "C163", "title": "relative-filter: the program", "statement": "relative-filter writes the operator of its source under the second name, with the same labels and truncation, whatever else its input says; it ends without a file if there are not two names or no source.", "quantifier": "for all inputs and operators", "why_tests_cant": "All operators and inputs cannot be tried.", "anchors": ["programs/relutils/relative-filter.cpp:35-212"]}
{"id": "C164", "title": "pn2rel or relative-filter, then moshinsky", "statement": "The operators written by pn2rel and relative-filter, read by moshinsky, give two-body files which hold the two-body matrix elements of the interaction or operator.", "quantifier": "for all interactions, truncations and targets", "why_tests_cant": "A chain of programs, over all spaces.", "anchors": ["programs/relutils/pn2rel.cpp:31-82", "programs/relutils/relative-filter.cpp:91-212", "programs/relutils/moshinsky.cpp:318-720"]}
{"id": "C165", "title": "statecount: two-body counts", "statement": "The two-body counts of statecount equal the number of pairs of orbitals in canonical order, within the one-body or two-body cut, that couple to J; the table has a row for every shell and every J for which there is a state.", "quantifier": "for all shells and J", "why_tests_cant": "All shells cannot be enumerated.", "anchors": ["programs/statecount/statecount.cpp:62-86", "programs/statecount/statecount.cpp:215-236"]}
{"id": "C166", "title": "statecount: two nucleons", "statement": "The two-body count with a one-body cut is the number of J-coupled states of two nucleons, identical or not.", "quantifier": "for all shells and J", "why_tests_cant": "All shells cannot be enumerated.", "anchors": ["programs/statecount/statecount.cpp:62-86"]}
{"id": "C167", "title": "statecount: two-body count by angular momentum", "statement": "The count by angular momentum exceeds the count in canonical order by exactly the number of pairs of different orbitals with equal angular momentum, so it is an upper bound.", "quantifier": "for all shells and J", "why_tests_cant": "All shells cannot be enumerated.", "anchors": ["programs/statecount/statecount.cpp:46-60"]}
{"id": "C168", "title": "statecount: three-body count by angular momentum", "statement": "The three-body count by angular momentum counts the triples of orbitals ordered by angular momentum with all intermediate couplings, and is an upper bound of the count in canonical order, for each intermediate angular momentum and in total.", "quantifier": "for all shells, J1 and J", "why_tests_cant": "All shells cannot be enumerated.", "anchors": ["programs/statecount/statecount.cpp:92-118"]}
{"id": "C169", "title": "radial-scale: change of oscillator length", "statement": "radial-scale multiplies each element of a radial operator r^k or k^k by the ratio of lengths of its species to the power k or -k and changes nothing else, whatever the order of the parallel iterations, so that elements between oscillator functions become those between functions of the new lengths and scaling twice is scaling by the product; it refuses exactly overlaps, generic operators and operators that change the charge; from a file of numbers it writes a file of numbers.", "quantifier": "for all files, ratios and orders of the parallel iterations", "why_tests_cant": "Files, ratios and thread schedules are unbounded; the program is not built by default and has no test.", "anchors": ["programs/radialutils/radial-scale.cpp:107-177"]}
{"id": "C170", "title": "Table of oscillator brackets: complete and in the documented order", "statement": "moshinsky_bracket_table lists, for every N up to the maximum and every L up to N, the bracket between every pair of two-body states with N quanta coupled to L, each once, in the order given in the header of the program.", "quantifier": "for all maximal N", "why_tests_cant": "The enumeration of l2 with the parity shift p has to be right for all N, L, N1, l1; the program is not built.", "anchors": ["libraries/moshinsky/moshinsky_bracket_table.cpp:1-48", "libraries/moshinsky/moshinsky_bracket_table.cpp:56-113"]}
{"id": "C171", "title": "make-radial-permutation: blocks reverse the radial functions", "statement": "For sectors between subspaces with the same l the assertion that blocks are square never fails, every block reverses the order of the radial functions of the subspace, and such a transformation is its own inverse.", "quantifier": "for all Nmax and sectors", "why_tests_cant": "All Nmax cannot be tried; the program is not built.", "anchors": ["programs/h2utils/make-radial-permutation.cpp:28-60"]}
