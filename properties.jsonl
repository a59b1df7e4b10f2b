{"id": "C01", "title": "Goldilocks add/sub/neg/double/mul/square are arithmetic modulo p and stay canonical", "statement": "For all Goldilocks field elements a, b, the canonical integer of a+b, a-b, -a, 2a, a*b and a^2 equals the corresponding integer expression modulo p = 2^64-2^32+1, and the stored word of the result is again strictly below p, so equality of stored words is equality of field elements.", "quantifier": "all pairs of field elements (all stored words below p), with all 64-bit carries and borrows", "why_tests_cant": "There are about 2^128 operand pairs and the interesting ones sit on carry boundaries of a hand written two round Montgomery reduction.", "anchors": ["fields/src/field_gl.rs: add_assign, sub_assign, negate, double, mul_assign, square, mont_reduce, add_nocarry, reduce"]}
{"id": "C02", "title": "Goldilocks integer conversions round-trip and reject exactly the integers >= p", "statement": "Converting an integer n < p to a field element and reading the canonical integer back gives n; converting back an element gives the same element; from_repr returns an error, and From<u64> panics, exactly when n >= p.", "quantifier": "every 64-bit integer and every field element", "why_tests_cant": "2^64 values; only 2^32-1 of them take the rejecting path.", "anchors": ["fields/src/field_gl.rs: from_repr, into_repr, from_raw_repr, as_int, From<u64> for Fr"]}
{"id": "C03", "title": "Goldilocks inverse", "statement": "For every non-zero a, inverse(a) is Some b with a*b = 1, and dividing by a non-zero element multiplies by that b; inverse(0) reports that no inverse exists.", "quantifier": "every field element", "why_tests_cant": "The inverse is a fixed addition chain for a^(p-2): a mistake in one exponent bit is visible only through the group order, and the claim needs primality of p.", "anchors": ["fields/src/field_gl.rs: inverse, exp_acc, Div for Fr"]}
{"id": "C04", "title": "Goldilocks exponentiation and Legendre symbol", "statement": "exp(a,e) and pow(a,e) equal a^e for every 64-bit exponent; legendre(a) is Zero for 0, QuadraticResidue exactly when a is a non-zero square and QuadraticNonResidue otherwise.", "quantifier": "every element and every 64-bit exponent", "why_tests_cant": "Exponent space is 2^64 and the residue claim quantifies over the existence of a root.", "anchors": ["fields/src/field_gl.rs: exp, legendre", "fields/src/field_gl.rs: pow (via crate ff)"]}
{"id": "C05", "title": "Goldilocks square root", "statement": "sqrt(a) returns Some r with r^2 = a exactly when a is a square, and None otherwise; it always terminates.", "quantifier": "every field element", "why_tests_cant": "Tonelli-Shanks loops run a data dependent number of times, up to the 2-adicity 32; tests cannot cover the depth of every element.", "anchors": ["fields/src/field_gl.rs: sqrt"]}
{"id": "C06", "title": "Raw representation helpers report the integer they hold", "statement": "num_bits of a raw 64-bit representation is the bit length of the integer, shifts and halving/doubling are floor division and wrapped multiplication by powers of two, and converting a field element to u64 yields its canonical integer.", "quantifier": "every 64-bit word and every shift amount", "why_tests_cant": "The faults sit on leading-zero counts and shift amounts above the word size.", "anchors": ["fields/src/field_gl.rs: FrRepr::num_bits, shr, shl, div2, mul2, From<Fr> for u64"]}
{"id": "C07", "title": "Vectorised Goldilocks lanes agree with the scalar field", "statement": "For canonical inputs every lane of the AVX2 and AVX-512 add, sub, neg, mul, square and division by a scalar is the canonical representation of the same operation modulo p; add, mul and square do so for every pair of 64-bit words; interleaving exchanges blocks as documented and is its own inverse.", "quantifier": "all lane values below p (all 64-bit words for add, mul, square), both instruction sets, all supported block lengths", "why_tests_cant": "Signed-compare tricks and 32-bit compare shortcuts fail only on a measure-zero set of carries.", "anchors": ["fields/src/arch/x86_64/avx2_field_gl.rs: add, sub, neg, mul64_64, square64, reduce128, interleave1, interleave2", "fields/src/arch/x86_64/avx512_field_gl.rs: add, sub, neg, mul64_64, square64, reduce128, interleave1, interleave2, interleave4"]}
{"id": "C08", "title": "The cubic extension is the ring F_p[x]/(x^3-x-1)", "statement": "Addition, subtraction, negation, multiplication and squaring of extension elements compute the coefficients of the polynomial operation reduced modulo x^3-x-1, for every combination of one and three dimensional operands, and a one dimensional element behaves as the constant polynomial it denotes.", "quantifier": "all pairs of extension elements of dimension 1 or 3", "why_tests_cant": "Six base-field coordinates and four dimension combinations; a sign error in the Karatsuba recombination can vanish on sparse inputs.", "anchors": ["starky/src/f3g.rs: add, sub, mul, neg, square, Add, Sub, Mul, Neg"]}
{"id": "C09", "title": "Extension field inversion", "statement": "For every extension element e that is not zero, e * inv(e) = 1; hence the extension is a field.", "quantifier": "all non-zero extension elements of dimension 1 or 3", "why_tests_cant": "The closed formula divides by a norm; that the norm is never zero needs irreducibility of x^3-x-1 over F_p.", "anchors": ["starky/src/f3g.rs: inv, _inv, Div"]}
{"id": "C10", "title": "Extension field exponentiation", "statement": "exp(e, n) equals the n-fold product of e for every exponent.", "quantifier": "all extension elements and all exponents", "why_tests_cant": "Exponents are unbounded machine words.", "anchors": ["starky/src/f3g.rs: exp"]}
{"id": "C11", "title": "Polynomial evaluation and coset shift", "statement": "eval_pol(p, x) is the sum of p_i * x^i; multiplying coefficients by the shift powers and then evaluating at x equals evaluating the original at shift * x scaled by the initial factor.", "quantifier": "all coefficient vectors of any length and all points", "why_tests_cant": "Length is unbounded and the identity is over all field values.", "anchors": ["starky/src/polutils.rs: eval_pol, pol_mul_axi"]}
{"id": "C12", "title": "Batch inversion returns element-wise inverses", "statement": "batch_inverse of a list returns a list of the same length whose i-th entry is the inverse of the i-th input, regardless of the other entries.", "quantifier": "all lists of field elements of any length", "why_tests_cant": "One element influences all results through the shared prefix product.", "anchors": ["starky/src/polutils.rs: batch_inverse"]}
{"id": "C13", "title": "Roots of unity tables", "statement": "For every n from 0 to 32 the table entry w[n] has multiplicative order exactly 2^n, w[n] = w[n+1]^2 and wi[n] is its inverse; the coset shift 49 lies outside every evaluation subgroup.", "quantifier": "all table indices", "why_tests_cant": "Exact order is a statement about all smaller exponents.", "anchors": ["starky/src/constant.rs: MG, SHIFT, SHIFT_INV", "starky/src/fft.rs: FFT::new"]}
{"id": "C14", "title": "FFT computes the discrete Fourier transform and ifft inverts it", "statement": "For every vector whose length is a power of two 2^k with k <= 31, fft returns the evaluations at the successive powers of w[k], and ifft(fft(p)) = p and fft(ifft(p)) = p; for other lengths it refuses.", "quantifier": "all coefficient vectors over the extension field and all power of two lengths", "why_tests_cant": "Unbounded length, in-place bit-reversal plus butterflies.", "anchors": ["starky/src/fft.rs: fft, ifft"]}
{"id": "C15", "title": "Low degree extension evaluates the same polynomial on the shifted domain", "statement": "extend_pol applied to the evaluations of a polynomial of degree < 2^n on the subgroup returns its evaluations on the coset 49*H' of the larger subgroup, in order.", "quantifier": "all polynomials, all sizes, all extension factors", "why_tests_cant": "Quantifies over all polynomials and sizes.", "anchors": ["starky/src/polutils.rs: extend_pol"]}
{"id": "C16", "title": "Integer base-2 logarithm used for sizing", "statement": "log2_any(v) is floor(log2 v) for every positive machine word.", "quantifier": "all positive 64-bit values", "why_tests_cant": "The mask table is only 32-bit wide, so small tests pass.", "anchors": ["starky/src/helper.rs: log2_any"]}
{"id": "C17", "title": "Bit reversal is independent of call history", "statement": "BR(x, k) returns the k-bit reversal of x for every call, no matter which calls were made before; it never fails.", "quantifier": "all call sequences on the process-wide cache and all arguments with x < 2^32", "why_tests_cant": "The result depends on a global, lazily grown cache: only call sequences reveal problems.", "anchors": ["starky/src/fft_p.rs: BR, BRs"]}
{"id": "C18", "title": "Inverse of the vanishing polynomial on the extended domain", "statement": "The i-th table value returned by the vanishing polynomial helper is 1/(x_i^N - 1) for the i-th point x_i = 49*w_ext^i of the extended domain, for every row index i and chunk offset.", "quantifier": "all trace sizes, blow-up factors, offsets and row indices", "why_tests_cant": "Domain sizes are unbounded and the table is periodic.", "anchors": ["starky/src/stark_gen.rs: build_Zh_Inv"]}
{"id": "C19", "title": "Goldilocks Merkle tree openings are complete", "statement": "For every matrix and every row index below the height, the opening produced by get_group_proof verifies against the tree root, and an index outside the height is refused.", "quantifier": "all heights, widths, contents and indices", "why_tests_cant": "All heights including those that are not powers of two and the smallest ones.", "anchors": ["starky/src/merklehash.rs: merkelize, get_group_proof, verify_group_proof, get_n_nodes"]}
{"id": "C20", "title": "Goldilocks Merkle tree openings are binding", "statement": "Two accepted openings of the same root at the same index reveal the same row, or else exhibit two different inputs on which the hash collides.", "quantifier": "all roots, indices, paths and rows offered by an adversary", "why_tests_cant": "Quantifies over every adversarial opening.", "anchors": ["starky/src/merklehash.rs: verify_group_proof, calculate_root_from_group_proof", "starky/src/linearhash.rs: hash"]}
{"id": "C21", "title": "BN128 Merkle tree openings are binding", "statement": "An opening accepted against a BN128 root determines the opened row: a row different from the committed one is rejected unless a hash collision is exhibited.", "quantifier": "all roots, indices, paths and rows offered by an adversary", "why_tests_cant": "Quantifies over every adversarial opening.", "anchors": ["starky/src/merklehash_bn128.rs: verify_group_proof, merkle_calculate_root_from_proof"]}
{"id": "C22", "title": "Row hashing separates different rows", "statement": "LinearHash maps different rows to different digests unless two different Poseidon inputs collide.", "quantifier": "all pairs of rows of any length", "why_tests_cant": "All lengths and the padding boundary.", "anchors": ["starky/src/linearhash.rs: hash, _hash"]}
{"id": "C23", "title": "Fiat-Shamir transcript (Goldilocks) binds challenges to everything absorbed", "statement": "Challenges are a function of the sequence of absorbed values and previous squeezes; two different absorbed sequences lead to different sponge states unless the permutation collides.", "quantifier": "all histories of put and get operations", "why_tests_cant": "Histories are unbounded; the faults sit on padding boundaries.", "anchors": ["starky/src/transcript.rs: put, get_field, get_fields1, update_state, add_1"]}
{"id": "C24", "title": "Query positions drawn from the transcript are in range and complete", "statement": "get_permutations(n, b) returns exactly n indices, each below 2^b, read from consecutive b-bit groups of the squeezed bits without reuse, for every transcript state.", "quantifier": "all transcript states and all n, b with n*b > 0", "why_tests_cant": "Bit groups straddle field element boundaries for most (n,b).", "anchors": ["starky/src/transcript.rs: get_permutations"]}
{"id": "C25", "title": "Fiat-Shamir transcript (BN128) never hands out stale challenges", "statement": "After new data has been absorbed, every challenge subsequently drawn depends on that data, i.e. nothing squeezed before the absorption is returned after it.", "quantifier": "all histories of put and get operations", "why_tests_cant": "Only particular interleavings of absorbing and squeezing expose leftover output.", "anchors": ["starky/src/transcript_bn128.rs: add_1, get_fields1, get_fields253, get_field, put"]}
{"id": "C26", "title": "FRI folding: verifier recomputes what the prover commits", "statement": "For every polynomial given by its evaluations on a coset and every folding factor and challenge, the value the prover puts at position g of the folded layer equals the value the verifier recomputes from the opened group at g, and equals the folded polynomial evaluated at the corresponding point of the next coset.", "quantifier": "all polynomials, layer sizes, folding factors, positions and challenges", "why_tests_cant": "All sizes and all field values at once.", "anchors": ["starky/src/fri.rs: prove, verify"]}
{"id": "C27", "title": "FRI final polynomial degree bound", "statement": "A proof is accepted only if the final polynomial has degree below the bound implied by the trace length and the number of folds.", "quantifier": "all final polynomials and all parameter choices", "why_tests_cant": "The excess is one coefficient.", "anchors": ["starky/src/fri.rs: verify"]}
{"id": "C28", "title": "Digest and extension element serialisation round-trip", "statement": "Serialising a digest or an extension element and reading it back yields an equal value, for every value; distinct values have distinct encodings.", "quantifier": "all digests and extension elements", "why_tests_cant": "Representation depends on whether trailing limbs vanish.", "anchors": ["starky/src/digest.rs: Serialize, Deserialize", "starky/src/serializer.rs: F3G Serialize, Deserialize"]}
{"id": "C29", "title": "Polynomial files round-trip", "statement": "Saving a polynomial table and loading it back into a table with the same description gives the same values, for every number of columns and rows.", "quantifier": "all table shapes and contents", "why_tests_cant": "Buffering boundaries (2^25 words) are unreachable for unit tests.", "anchors": ["starky/src/polsarray.rs: save, load, write_buff"]}
{"id": "C30", "title": "Iterative post-order traversal visits children before parents", "statement": "The work-list traversal of an expression tree visits exactly the nodes of the tree, each once, in left-to-right post-order.", "quantifier": "all expression trees", "why_tests_cant": "Unbounded depth and arity.", "anchors": ["starky/src/starkinfo_codegen.rs: iterative_postorder_traversal"]}
{"id": "C31", "title": "Generated straight-line code computes the expression", "statement": "Executing the instructions generated for an expression, in order, on any row and any challenges leaves in the result reference the value of the expression, and does not disturb values computed earlier.", "quantifier": "all expression tables without cyclic references, all rows, all inputs", "why_tests_cant": "Quantifies over all programs and all field values; temporaries are reused across calls.", "anchors": ["starky/src/starkinfo_codegen.rs: pil_code_gen, eval_exp, eval_single_op, calculate_deps", "starky/src/stark_verify.rs: execute_code"]}
{"id": "C32", "title": "Fused multiply-add rewriting preserves meaning", "statement": "Rewriting a*b+c and c+a*b into fused multiply-add nodes never changes the value of an expression.", "quantifier": "all expression trees and assignments", "why_tests_cant": "All tree shapes.", "anchors": ["starky/src/starkinfo_codegen.rs: find_muladd"]}
{"id": "C33", "title": "Intermediate polynomial selection respects the degree bound", "statement": "When intermediate polynomials are chosen for a constraint and a maximal degree d, replacing the chosen sub-expressions by committed columns leaves the constraint and each chosen definition with degree at most the reported bound, which is at most d; the reported quotient degree is that bound minus one.", "quantifier": "all acyclic expression tables and all maximal degrees", "why_tests_cant": "Search over all splits; any unsound branch invalidates the quotient size.", "anchors": ["starky/src/starkinfo_cp_prover.rs: calculate_im_pols, _calculate_im_pols"]}
{"id": "C34", "title": "Column layout never overlaps", "statement": "Inside every section each polynomial gets its own block of 1 or 3 consecutive columns, blocks of different polynomials are disjoint and together they fill the section width exactly; sections occupy disjoint ranges of the total memory map.", "quantifier": "all multisets of polynomials and dimensions, all trace sizes", "why_tests_cant": "Unbounded number of polynomials in arbitrary order.", "anchors": ["starky/src/starkinfo_map.rs: map_section, map"]}
{"id": "C35", "title": "R1CS to PLONK conversion is equivalent to the circuit", "statement": "An assignment satisfies an R1CS constraint system iff its extension by the auxiliary additions satisfies every generated PLONK gate.", "quantifier": "all constraint systems and all assignments", "why_tests_cant": "All linear combination shapes including constants and zero terms.", "anchors": ["recursion/src/r1cs2plonk.rs: r1cs2plonk"]}
{"id": "C36", "title": "Compressor execution file round-trips and extends the witness consistently", "statement": "Reading back a written execution file yields the same additions and signal map, and running it on a witness computes exactly the auxiliary signals that the PLONK additions define.", "quantifier": "all addition lists, signal maps and witnesses", "why_tests_cant": "Sizes are unbounded; coefficients travel in internal Montgomery form.", "anchors": ["recursion/src/compressor12/compressor12_setup.rs: write_exec_file", "recursion/src/compressor12/compressor12_exec.rs: exec, read_exec_file"]}
{"id": "C37", "title": "Copy constraints connect exactly the equal signals", "statement": "The permutation polynomials produced at setup form a permutation of the cells whose cycles connect precisely the cells carrying the same non-zero signal; cells without a signal are fixed.", "quantifier": "all signal maps", "why_tests_cant": "All layouts and numbers of occurrences.", "anchors": ["recursion/src/compressor12/plonk_setup.rs: plonk_setup_compressor"]}
{"id": "C38", "title": "Row budget computed at setup is sufficient", "statement": "The number of rows reserved for ordinary PLONK gates is enough for the placement algorithm, for every list of gates.", "quantifier": "all gate lists", "why_tests_cant": "Depends on the multiplicity profile and order of gates.", "anchors": ["recursion/src/compressor12/plonk_setup.rs: NormalPlonkInfo::new, plonk_setup_compressor"]}
{"id": "C39", "title": "Exactly the declared signals become public", "statement": "The compressor exposes as public inputs exactly the circuit's public outputs and public inputs.", "quantifier": "all circuits", "why_tests_cant": "Only circuits with public outputs reveal the difference.", "anchors": ["recursion/src/compressor12/plonk_setup.rs: plonk_setup_render", "algebraic/src/reader.rs: load_r1cs_from_bin"]}
{"id": "C40", "title": "Witness files round-trip", "statement": "A witness written to the binary witness format is read back unchanged, and malformed headers, sizes or out-of-range elements are refused rather than misread.", "quantifier": "all witnesses and all byte strings", "why_tests_cant": "All byte strings.", "anchors": ["algebraic/src/witness/witness_calculator.rs: save_witness_from_bin_writer", "algebraic/src/reader.rs: load_witness_from_bin_reader"]}
{"id": "C41", "title": "R1CS files parse to the encoded circuit", "statement": "Parsing the encoding of a constraint system returns that system with terms sorted by wire, and parsing any byte string terminates.", "quantifier": "all constraint systems and all byte strings", "why_tests_cant": "Unbounded files; truncated input.", "anchors": ["algebraic/src/r1cs_file.rs: from_reader, read_header, read_constraint_vec, read_constraints, read_map, read_to_string"]}
{"id": "C42", "title": "32-bit limb conversion round-trips", "statement": "Splitting a non-negative integer into a fixed number of 32-bit limbs and recombining gives the integer back; integers that do not fit are refused.", "quantifier": "all integers and limb counts", "why_tests_cant": "Arbitrary precision.", "anchors": ["algebraic/src/witness/witness_calculator.rs: to_array32, from_array32"]}
{"id": "C43", "title": "Joining two proof inputs loses nothing", "statement": "The joined input of two proofs determines both: every entry of each input can be recovered from the join, entries of one never overwrite entries of the other, and the public inputs are passed on once.", "quantifier": "all pairs of proof inputs (maps from names to values)", "why_tests_cant": "All key sets, including keys that look like generated names.", "anchors": ["starky/src/zkin_join.rs: join_zkin"]}
{"id": "C44", "title": "Lookup sorting polynomials", "statement": "For every table t and every f of the same length whose elements all occur in t, the two returned polynomials interleave to a list that contains exactly the elements of f and t with multiplicity, in which every f element stands in the run of an equal table entry and the table order is kept; for a shorter f they interleave to the first 2|f| entries of that list; an f element absent from t is refused.", "quantifier": "all tables (with duplicates) and all f", "why_tests_cant": "All lengths, all duplication patterns.", "anchors": ["starky/src/stark_gen.rs: calculate_H1H2"]}
{"id": "C45", "title": "Grand product polynomial", "statement": "calculate_Z returns z with z_0 = 1 and z_{i+1} * den_i = z_i * num_i for all rows cyclically, and refuses when the total products differ.", "quantifier": "all num/den columns of any length without zero denominators", "why_tests_cant": "Unbounded length over field values.", "anchors": ["starky/src/stark_gen.rs: calculate_Z"]}
{"id": "C46", "title": "Parallel evaluation equals sequential evaluation", "statement": "Evaluating a segment of expressions in chunks by any number of workers (calculate_exps_parallel) leaves the same columns as evaluating it row by row (calculate_exps).", "quantifier": "all steps, worker counts, row counts, programs and memory contents", "why_tests_cant": "Chunk boundaries depend on the machine's CPU count and on row counts above 4096 per worker, so a small test always runs a single chunk.", "anchors": ["starky/src/stark_gen.rs: calculate_exps_parallel, calculate_exps", "starky/src/interpreter.rs: Block::eval"]}
{"id": "C47", "title": "PIL number parsing", "statement": "parse_pil_number returns the residue modulo p of the decimal or hexadecimal literal, for every literal it accepts.", "quantifier": "all literals", "why_tests_cant": "Sign and magnitude boundaries.", "anchors": ["starky/src/types.rs: parse_pil_number"]}
{"id": "C48", "title": "FRI query equality", "statement": "Two queries compare equal only if they contain the same openings.", "quantifier": "all pairs of queries", "why_tests_cant": "Lists of different length.", "anchors": ["starky/src/fri.rs: Query PartialEq"]}
{"id": "C49", "title": "Section accessors name the section they return", "statement": "Reading a section by name after writing it by name returns what was written and leaves other sections untouched.", "quantifier": "all section names and values", "why_tests_cant": "Eleven hand-written name dispatches.", "anchors": ["starky/src/starkinfo_codegen.rs: IndexVec::get, Index::get, Index::set"]}
{"id": "C50", "title": "Parallel FFT interpolation agrees with the reference extension", "statement": "The block-wise, bit-reversed, transposing transform returns the same low degree extension as the simple reference for every size, number of columns and block size.", "quantifier": "all sizes, column counts and worker counts", "why_tests_cant": "Block parameters depend on size and machine.", "anchors": ["starky/src/fft_p.rs: interpolate, _fft, transpose, bit_reverse, interpolate_prepare", "starky/src/fft_worker.rs: fft_block, interpolate_prepare_block"]}
{"id": "C51", "title": "Expression degree used for sizing", "statement": "The base-field/extension dimension assigned to an expression is 3 whenever its value can lie outside the base field.", "quantifier": "all acyclic expression tables and assignments", "why_tests_cant": "All expression shapes.", "anchors": ["starky/src/starkinfo_map.rs: get_exp_dim, set_code_dimensions"]}
{"id": "C52", "title": "Custom gate rows are counted for the gate that is used", "statement": "The number of rows reserved for custom gates equals the number of rows the placement uses for them, whatever the declaration order and set of declared gates.", "quantifier": "all custom gate declarations and uses", "why_tests_cant": "All declaration subsets.", "anchors": ["recursion/src/compressor12/plonk_setup.rs: CustomGateInfo::from_r1cs"]}
{"id": "C53", "title": "Row index addressing wraps cyclically", "statement": "A reference to the next row of a column read on the base or extended domain addresses row (i+1) respectively (i+2^blowup) modulo the domain size, inside the column's section.", "quantifier": "all rows, sections, offsets", "why_tests_cant": "Boundary rows.", "anchors": ["starky/src/interpreter.rs: get_i, eval_map, compile_code"]}
{"id": "C54", "title": "Interpreter blocks agree with the verifier's direct execution", "statement": "Compiling generated code to interpreter blocks and evaluating them at a row yields the same values as executing the code directly.", "quantifier": "all instruction sequences and memory contents", "why_tests_cant": "All programs.", "anchors": ["starky/src/interpreter.rs: compile_code, Block::eval, get_ref, set_ref", "starky/src/stark_verify.rs: execute_code"]}
{"id": "C55", "title": "A custom gate use is laid out as the template it names", "statement": "Every use of a custom gate is laid out with the rows and constants of the template declared under its identifier, for every declaration list.", "quantifier": "all declaration lists and uses", "why_tests_cant": "Depends on which templates are declared and in which order; undeclared ones silently get identifier 0.", "anchors": ["recursion/src/compressor12/plonk_setup.rs: CustomGateInfo::from_r1cs, plonk_setup_compressor"]}
{"id": "C56", "title": "Gate placement loses and invents no gate", "statement": "After placement every PLONK gate occupies some slot of a gate row with its own wires and coefficients, every slot of a gate row holds one of the gates or the empty gate, and no other row is touched.", "quantifier": "all gate lists, all orders of the partial rows", "why_tests_cant": "The packing state depends on the whole sequence of coefficient vectors.", "anchors": ["recursion/src/compressor12/plonk_setup.rs: plonk_setup_compressor"]}
{"id": "C57", "title": "Custom gate rows mean the custom gate", "statement": "The PIL identities on the rows written for CMulAdd, EvPol4, FFT4 and Poseidon12 hold exactly when the cells satisfy a*b+c, Horner evaluation of degree 4, the scaled 4-point (or two 2-point) FFT over the cubic extension, and the 30 Poseidon rounds.", "quantifier": "all cell values, all parameters, all rows", "why_tests_cant": "All field elements.", "anchors": ["recursion/src/compressor12/plonk_setup.rs: plonk_setup_compressor", "recursion/src/compressor12/compressor12_pil.rs: render"]}
{"id": "C58", "title": "The compressor table accepts exactly the circuit", "statement": "A table satisfying the gate identities and the copy constraints of the setup yields an assignment satisfying the R1CS and agreeing with the table's cells and publics; every satisfying assignment fills such a table.", "quantifier": "all circuits without constant-sided constraints, all tables, all assignments", "why_tests_cant": "Soundness quantifies over all tables.", "anchors": ["recursion/src/compressor12/plonk_setup.rs: plonk_setup_render, plonk_setup_compressor", "recursion/src/compressor12/compressor12_pil.rs: render", "recursion/src/r1cs2plonk.rs"]}
{"id": "C59", "title": "BN128 Merkle trees can be built for every matrix and their openings are complete", "statement": "For every matrix of Goldilocks elements merkelize succeeds, and for every row index the opening produced by get_group_proof verifies against the tree root.", "quantifier": "all heights, widths, contents and indices", "why_tests_cant": "Depends on the value of every 64-bit limb of every hash in the tree.", "anchors": ["starky/src/merklehash_bn128.rs: merkelize, get_group_proof, verify_group_proof", "starky/src/digest.rs: from_scalar"]}
{"id": "C60", "title": "BN128 rows are hashed the same way when committed and when opened", "statement": "hash_element_array, used to commit a row, and hash_element_matrix, used to check an opened row, give the same digest for every row.", "quantifier": "all rows of any length", "why_tests_cant": "The two functions group the words differently; the boundary length is easy to miss.", "anchors": ["starky/src/linearhash_bn128.rs: hash_element_array, hash_element_matrix, to_mont"]}
{"id": "C61", "title": "Columns written into a section are read back and leave other columns alone", "statement": "After set_pol writes a vector into a column of one or three cells per row, get_pol reads back the same field values, and every other polynomial of the section, occupying different cells, reads as before.", "quantifier": "all sections, offsets, widths, row counts, vectors of base or extension elements and memory contents", "why_tests_cant": "All layouts; a base field element stored in an extension column takes another path than an extension element.", "anchors": ["starky/src/stark_gen.rs: set_pol, get_pol"]}
{"id": "C62", "title": "The verifier's constraint code evaluates the constraint", "statement": "The code generated for the verifier, run on the evaluations listed by its evaluation map, computes the value of the constraint expression with intermediate expressions read as columns; the verifier's check at the challenge point accepts exactly when that value equals the recombined quotient times x^N - 1.", "quantifier": "all expression tables, intermediate sets, quotient columns and evaluations for which code generation succeeds", "why_tests_cant": "All constraint shapes; a temporary reused by the renumbering would only show on particular trees.", "anchors": ["starky/src/starkinfo_cp_ver.rs: generate_constraint_polynomial_verifier", "starky/src/stark_verify.rs: stark_verify, execute_code", "starky/src/starkinfo_codegen.rs: EVIdx, iterate_code"]}
{"id": "C63", "title": "FRI accepts honest proofs", "statement": "For every polynomial below the degree bound, given by its evaluations on the shifted domain, the prover produces a proof and the verifier, starting from the same transcript state, accepts it: challenges, query positions, Merkle openings, folded values and the final degree check all agree.", "quantifier": "all polynomials, step lists, numbers of queries, worker counts, transcript states and hash functions", "why_tests_cant": "One instance per run; the interaction of all steps, sizes and challenges is unbounded.", "anchors": ["starky/src/fri.rs: prove, verify, get_transposed_buffer, get3, split3", "starky/src/merklehash.rs: merkelize, get_group_proof, verify_group_proof", "starky/src/transcript.rs: get_field, get_permutations, put"]}
{"id": "C64", "title": "A proof file holds the whole proof", "statement": "Writing a STARK proof to its JSON form and reading it back gives the same proof (roots, openings, siblings, evaluations, final polynomial, public inputs), and different proofs are written differently. A file without the values of one tree is read as the proof with empty openings of that tree.", "quantifier": "all proofs: any number of queries, steps, columns and siblings, for the Goldilocks, BN128 and BLS12-381 trees", "why_tests_cant": "Names of entries are generated from step numbers and lists are transposed on the way; the tests hold a handful of proofs with few steps.", "anchors": ["starky/src/serializer.rs: Serialize and Deserialize for StarkProof", "starky/src/traits.rs: mt_node_to_basefield"]}
{"id": "C65", "title": "The AVX2 Poseidon hash is the scalar Poseidon hash", "statement": "For every list of inputs, every initial state and every requested output length up to four, the AVX2 build of Poseidon::hash (three registers of four lanes, its own transposed and padded constant tables, 72-bit products, lane-wise reductions) returns exactly what the scalar Poseidon::hash of poseidon_opt.rs returns, including the errors on wrong lengths; the scalar hash is defined for every output length up to twelve. Beyond four words the two differ: AVX2 panics, scalar answers.", "quantifier": "all inputs, initial states and output lengths, with the literal constant tables of both source files", "why_tests_cant": "The tests compare three fixed inputs; a wrong constant lane, carry or reduction shows only for some of the 2^768 states.", "anchors": ["starky/src/poseidon_opt.rs:80-200", "starky/src/arch/x86_64/avx2_poseidon_gl.rs:22-421", "starky/src/poseidon_constants_opt.rs:2-816", "starky/src/poseidon_constants_avx2.rs:2-811"]}
{"id": "C66", "title": "The AVX-512 Poseidon hash is two scalar Poseidon hashes", "statement": "For any two messages of eight elements and capacities of four, the AVX-512 Poseidon::hash of the two messages interleaved by fours returns the four words of the scalar hash of the first message followed by the four words of the scalar hash of the second, for every requested length up to eight; other input lengths give an error.", "quantifier": "all pairs of messages, capacities and output lengths, with the literal constant tables of both source files", "why_tests_cant": "Tests use equal or tiny messages in both halves; a lane leaking from one half into the other is visible only on unequal messages in particular rounds.", "anchors": ["starky/src/arch/x86_64/avx512_poseidon_gl.rs:23-450", "starky/src/poseidon_constants_avx512.rs:2-1589", "starky/src/poseidon_opt.rs:80-200"]}
{"id": "C67", "title": "The AVX-512 linear hash and Merkle tree are the scalar ones", "statement": "Compiled for AVX-512, the linear hash handles two rows of equal length at once and returns exactly the digests the scalar linear hash gives each row, for every batch size; the Merkle tree built from a buffer of h rows of width w (two leaves or four nodes at a time, with odd rows and pairs at the ends) equals the scalar tree node by node, for every number of threads and including failures; openings verify to the same answer.", "quantifier": "all rows, batch sizes, widths, heights, buffers of matching length and numbers of threads, for the source's Poseidon constants", "why_tests_cant": "Tests build a few small trees; block boundaries, odd row counts, leftover pairs and chunking over threads interact in many ways, and CI machines rarely have AVX-512.", "anchors": ["starky/src/linearhash.rs:147-302", "starky/src/merklehash.rs:143-182", "starky/src/merklehash.rs:237-249", "starky/src/merklehash.rs:355-423"]}
{"id": "C68", "title": "The optimised Poseidon hashes equal the textbook ones", "statement": "The optimised Poseidon of the BN254 field (poseidon_bn128_opt: sparse partial rounds, moved constants, pre-sparse matrix) returns exactly what the textbook Poseidon (poseidon_bn128: add constants, S-box, full matrix in every round) returns, for every list of inputs, every initial value and every number of output words: errors for no input or more than 16, a panic when more words are asked than the state has, otherwise the same words. The published constant tables of both files load without panic at all 16 widths. The same must hold of the BLS12-381 pair of files.", "quantifier": "all input lists of BN254 field elements of any length, all initial values, all output counts; the underlying permutation equality for any commutative ring, S-box, width and round numbers satisfying the table equations", "why_tests_cant": "The tests compare a handful of fixed vectors per file and never the two files with each other; the state space is the 17th power of a 254-bit field, and one wrong word among some 35,000 table entries changes results only at its width.", "anchors": ["starky/src/poseidon_bn128.rs:21-140", "starky/src/poseidon_bn128_opt.rs:11-224", "starky/src/poseidon_bn128_constants.rs", "starky/src/poseidon_bn128_constants_opt.rs", "starky/src/poseidon_bls12381.rs:104-140", "starky/src/poseidon_bls12381_opt.rs:59-108"]}
{"id": "C69", "title": "The split of the quotient keeps the quotient", "statement": "Given the values on the shifted extended domain of a quotient polynomial of degree below deg times the trace length, the prover's inverse transform, split into deg columns and forward transform end without panic. Column p holds, on that domain, the polynomial of the coefficients p N to p N + N - 1 of the quotient, and the columns, the p-th multiplied by x^(p N), sum to the quotient at every point.", "quantifier": "all quotient polynomials, all degrees that fit the extended domain, both dimensions of the quotient, all worker counts, domains up to 2^31, all earlier contents of the output buffer and reachable bit-reversal caches", "why_tests_cant": "A test proves one small circuit; a wrong power of the shift in one column only fails for circuits whose quotient has two or more columns.", "anchors": ["starky/src/stark_gen.rs:375-397", "starky/src/fft_p.rs"]}
{"id": "C70", "title": "The evaluations are those of the committed polynomials", "statement": "For every entry of the evaluation map the number the prover puts into the proof is the value of the committed or constant polynomial at the challenge point, or, for a reference to the next row, at the challenge point times the generator of the trace domain. It is computed from every 2^(extension) th row of the extended section and the table of Lagrange values.", "quantifier": "all sections holding polynomials of degree below the trace length on the extended domain, both column dimensions, all positions, all challenge points, trace and extended domains up to 2^31", "why_tests_cant": "Tests compare nothing to the polynomials themselves; they only run a prover against a verifier that shares the code for the map.", "anchors": ["starky/src/stark_gen.rs:414-466"]}
{"id": "C71", "title": "The verifier accepts the proof of an honest prover", "statement": "Take any table of expressions and identities from which the code generator makes a constraint and a program, any trace whose identities vanish in every row and whose intermediate columns equal their expressions, committed in the four trees of stages 1 to 3 and the constants, and the transcript those stages leave. Then the prover computes the quotient, commits to it, draws the challenge point, and unless that point lies in the evaluation domain it finishes the proof (evaluations, FRI polynomial, folding, queries) without panic, and stark_verify on this proof and the constants' root returns true.", "quantifier": "all expression tables, layouts, traces, publics, numbers of workers whose last chunk reaches the next row, FRI step lists, query counts, and all functions in place of the Poseidon permutation that return twelve words", "why_tests_cant": "Each end-to-end test fixes one program and one trace. The code generator, the interpreter, the transforms, the Merkle trees, the transcript and FRI all have to agree for every program.", "anchors": ["starky/src/stark_gen.rs:370-557", "starky/src/stark_verify.rs:20-136", "starky/src/starkinfo.rs:237-270", "starky/src/starkinfo_cp_prover.rs:26-113", "starky/src/starkinfo_cp_ver.rs", "starky/src/starkinfo_fri_prover.rs:16-95", "starky/src/starkinfo_fri_ver.rs:13-15", "starky/src/starkinfo_map.rs:232-288"]}
{"id": "C72", "title": "Each stage commits to the extension of its columns", "statement": "Committing a stage ends without panic. Every column of the stage's section, of dimension one or three, is replaced on the extended shifted domain by the one polynomial of degree below the trace length that agrees with it on the trace; the tree is the Merkle tree of those values, its root is the next thing absorbed by the transcript, and no other section changes. The setup builds the tree of the constants the same way.", "quantifier": "all sections of field elements, widths, positions, worker counts, buffers left by earlier stages, transcripts and bit-reversal caches, and all functions in place of the Poseidon permutation that return twelve words; extended domains up to 2^24 rows (2^31 for the setup)", "why_tests_cant": "Tests run prover and verifier on the same code; a column extended from the wrong buffer or at the wrong offset is seen only if an identity reads it.", "anchors": ["starky/src/stark_gen.rs:203-372", "starky/src/stark_setup.rs:26-63"]}
{"id": "C73", "title": "The whole prover makes proofs that the verifier accepts", "statement": "If the three first stages of stark_gen end and the trace they leave satisfies every identity and defines the intermediate columns, stark_gen finishes and stark_verify accepts its proof, unless the challenge point falls in the evaluation domain; the publics of the proof are those computed. For a program without lookups, permutations, connections and intermediate columns the stages do end for every pair of tables, so every table of committed columns that satisfies the identities row by row yields an accepted proof.", "quantifier": "all programs, layouts, tables of committed and constant columns, publics, worker counts, FRI step lists, query counts, and all functions in place of the Poseidon permutation that return twelve words; extended domains up to 2^24 rows", "why_tests_cant": "An end-to-end test proves one table of one program.", "anchors": ["starky/src/stark_gen.rs:190-557", "starky/src/stark_verify.rs:20-136", "starky/src/stark_setup.rs:26-63"]}
{"id": "C74", "title": "What an accepted STARK proof establishes", "statement": "If stark_verify accepts a proof, then the values the proof claims at the challenge point satisfy the combination of all identities and intermediate-column definitions times the vanishing polynomial; at every query position the opened rows lie under the four committed roots and the root of the constants and combine to the FRI value (differences to the claimed values over the distances to the challenge point and its successor); every FRI layer is the fold of the layer before it at the queried positions; and the last layer is a polynomial of bounded degree.", "quantifier": "all proofs, including dishonest ones, all programs and layouts generated from identities, publics, FRI step lists, query counts and functions in place of the Poseidon permutation", "why_tests_cant": "Tests only verify honest proofs and a few corrupted ones; a check that is missing or weakened is invisible to them.", "anchors": ["starky/src/stark_verify.rs:20-136", "starky/src/starkinfo_cp_ver.rs", "starky/src/starkinfo_fri_ver.rs", "starky/src/fri.rs:187-296"]}
{"id": "C75", "title": "What FRI accepts lies on a polynomial of low degree", "statement": "If the FRI verifier accepts, the answers it saw at the queried positions are the values of one polynomial of the degree asked for on the shifted evaluation domain.", "quantifier": "all proofs, transcripts, query counts, domain sizes and functions in place of the Poseidon permutation", "why_tests_cant": "The accepting proof has a last layer of another size than the prover ever makes, so tests with honest proofs never show it.", "anchors": ["starky/src/fri.rs:187-296"]}
{"id": "C76", "title": "Lookup argument: generated constraints mean inclusion", "statement": "The expressions and identities that generate_step2 and generate_step3 produce for a lookup hold on all rows of a trace, for enough values of the challenges u, defVal, beta and gamma, only if every selected row of the looked-up columns is a selected row of the table. Conversely the columns h1, h2 and z computed by calculate_H1H2 and calculate_Z satisfy them unless a denominator is zero, in which case calculate_Z fails. Both constraints are among the identities and all added columns are new and distinct.", "quantifier": "all lists of lookups, permutations and connections, expression tables, row counts, column counts and column values, with and without selectors; all challenges outside fewer than the stated numbers", "why_tests_cant": "A test checks one table that satisfies the lookup; a constraint that is too weak (a missing term, a wrong challenge, a prime on the wrong column) accepts honest traces all the same.", "anchors": ["starky/src/starkinfo.rs:324-409", "starky/src/starkinfo_Z.rs:107-199", "starky/src/stark_gen.rs:625-679"]}
{"id": "C77", "title": "Permutation argument: generated constraints mean equal multisets", "statement": "The identities generated for a permutation hold on all rows of a trace, for enough values of u, defVal and beta, only if the selected rows of one side are a rearrangement of the selected rows of the other. Conversely, if they are, calculate_Z succeeds unless a denominator is zero and its column satisfies the identities.", "quantifier": "all lists of arguments, expression tables, row and column counts and values, with and without selectors; all challenges outside fewer than the stated numbers", "why_tests_cant": "Honest traces satisfy weakened constraints too.", "anchors": ["starky/src/starkinfo_Z.rs:32-101", "starky/src/starkinfo_Z.rs:201-281"]}
{"id": "C78", "title": "Connection argument: generated constraints mean equal connected cells", "statement": "Every connection can be generated; its identities hold on all rows of a trace, for enough values of beta and gamma, only if every cell whose connection column carries the label of a cell holds the value of that cell. Conversely, if the labels are moved by a permutation of the cells along which values do not change, calculate_Z succeeds unless a denominator is zero and its column satisfies the identities.", "quantifier": "all lists of arguments, 2^e rows with e up to 32, fewer than 2^32 columns, all values and label columns, all challenges outside fewer than the stated numbers", "why_tests_cant": "Honest traces satisfy weakened constraints too, and no test connects a single column.", "anchors": ["starky/src/starkinfo_Z.rs:283-423", "starky/src/helper.rs:16-23"]}
{"id": "C79", "title": "The prover's kept columns hold the expressions they are declared for", "statement": "The code that pil_code_gen and fix_prover_code produce for a list of expressions, run over the rows of the trace by calculate_exps_parallel, fills every column that keeps an expression (intermediate columns and temporary expression columns) with the value of that expression in that row, also when other expressions read the column in the following row, and leaves all other columns it reads as they were. A value kept in a column of one component has one component.", "quantifier": "all expression tables, lists of requested expressions, column layouts without overlap, trace lengths, memory contents and worker counts", "why_tests_cant": "Whether a primed write lands in the right row depends on how chunks are cut and on the order in which the expressions of a program are first used; a test runs one program in one chunk.", "anchors": ["starky/src/starkinfo_codegen.rs: pil_code_gen, fix_prover_code", "starky/src/stark_gen.rs: calculate_exps_parallel", "starky/src/interpreter.rs: compile_code, Block::eval"]}
{"id": "C80", "title": "Proofs with lookups, permutations, connections and intermediate columns are accepted", "statement": "If the committed table satisfies the identities that do not belong to an argument and stark_gen returns a proof, then after its three stages every identity holds in every row, including the two of each lookup, permutation and connection, every intermediate column holds its expression, and stark_verify accepts the proof, with the publics of the table, unless the challenge point lies on the extended domain.", "quantifier": "all expression tables, lists of arguments, intermediate columns, column layouts without overlap, trace lengths, tables, constants, permutations in the place of Poseidon, FRI steps, query and worker counts", "why_tests_cant": "The identities of the arguments hold only if the code of stages 2 and 3, the columns h1, h2 and z, the intermediate columns and the programs of the verifier agree for every machine; a test runs one machine with one layout.", "anchors": ["starky/src/stark_gen.rs:190-557", "starky/src/stark_verify.rs", "starky/src/starkinfo_Z.rs", "starky/src/starkinfo_cp_prover.rs:26-113"]}
{"id": "C81", "title": "The publics are the values they are declared as", "statement": "The publics that the prover computes and absorbs first are, in declaration order, the value of the declared expression in the declared row for publics of type imP and the declared cell for publics of type cmP, whatever the order of the two types. Primed references in such an expression mean the following row, cyclically. Computing them changes nothing else in the prover's memory but temporaries.", "quantifier": "all expression tables, lists of publics, rows, traces and constant tables", "why_tests_cant": "Existing circuits declare publics of one type only, so the index into publics_code, which counts publics of one type, always agrees with the index into publics.", "anchors": ["starky/src/starkinfo.rs:274-322", "starky/src/starkinfo_map.rs:244-246", "starky/src/stark_gen.rs:255-272, 559-574"]}
{"id": "C82", "title": "The prover ends exactly when the lookups hold and no denominator vanishes", "statement": "For a committed table that satisfies the identities that do not belong to an argument, the first stage of stark_gen always ends, the second ends exactly if in every lookup each value of f is a value of t, and the third ends exactly if in every lookup, permutation and connection no denominator is zero and numerators and denominators have the same product over the rows. Then stark_gen returns a proof and stark_verify accepts it, with the publics of the table, unless the challenge point lies on the extended domain.", "quantifier": "all expression tables, lists of arguments, intermediate columns, column layouts without overlap, trace lengths, tables, constants, permutations in the place of Poseidon, FRI steps, query and worker counts", "why_tests_cant": "Whether the prover panics depends on the choice of intermediate columns, which decides how many components f and t are kept with; the shipped circuits look up single columns or tuples, for which both are kept the same way.", "anchors": ["starky/src/stark_gen.rs:293-372, 600-667", "starky/src/starkinfo.rs:324-405", "starky/src/starkinfo_map.rs:47-100, 159-175", "starky/src/f3g.rs:14-28"]}
{"id": "C83", "title": "A table in which the lookups, permutations and connections hold is proved", "statement": "If in the committed table every selected row of a lookup is a selected row of its table, the selected rows of the two sides of every permutation are the same multiset, connected cells are equal and the other identities hold, and f and t of each lookup are kept with the same number of components, then with the arguments generated by generate_step2 and generate_step3 stages one and two of stark_gen end, stage three ends exactly if no denominator is zero, and then stark_gen returns a proof that stark_verify accepts, unless the challenge point lies on the extended domain.", "quantifier": "all lists of lookups, permutations and connections with any number of columns and selectors, expression tables, intermediate columns, column layouts without overlap, trace lengths, tables, permutations in the place of Poseidon, FRI steps, query and worker counts", "why_tests_cant": "Joins the code generated for the arguments, the columns h1 and h2 computed in between, the products z and the verifier; a test runs one circuit with one table and one set of challenges.", "anchors": ["starky/src/starkinfo.rs:324-409", "starky/src/starkinfo_Z.rs", "starky/src/stark_gen.rs:293-372, 600-667", "starky/src/stark_verify.rs"]}
{"id": "C84", "title": "The quintic extension is a ring", "statement": "The sum, difference, product, square, double and product by an integer of F5G denote those of polynomials modulo x^5 - 3, whatever the dimensions of the operands; results are tagged one-dimensional exactly when both operands are, and == and is_zero compare polynomials only. Negation and negate give the negative.", "quantifier": "all elements of dimension one and five, all integers", "why_tests_cant": "Each operation is a formula in ten field elements with four cases of dimension; a test tries a few tuples and no test negates an element of dimension five.", "anchors": ["starky/src/f5g.rs:71-98, 232-273, 321-501"]}
{"id": "C85", "title": "The quintic extension is a field", "statement": "inv of an F5G is the inverse of every nonzero element and zero for zero, division undoes multiplication, there are no zero divisors, frob1 and frob2 are an automorphism of order five and its square that fix only constants, and exp is the power.", "quantifier": "all elements of dimension one and five, all exponents of any length", "why_tests_cant": "That the norm computed from three conjugates is a constant and never zero holds because 3 is no fifth power and x^5 - 3 has no quadratic factor; no sampling of 2^320 elements shows it.", "anchors": ["starky/src/f5g.rs:146-185, 224-230, 470-477, 581-674"]}
{"id": "C86", "title": "Comparisons of the quintic extension", "statement": "gt, geq, lt and leq of F5G compare elements of the same dimension in one total order, the order of the canonical integers in dimension one, and panic for different dimensions.", "quantifier": "all pairs of elements", "why_tests_cant": "The comparison is a formula over ten coefficients whose cases overlap, and lt ends only for some pairs; a test of a few pairs meets neither the incomparable pairs nor the endless call.", "anchors": ["starky/src/f5g.rs:101-144"]}
{"id": "C87", "title": "A PIL whose table satisfies it is set up, proved and accepted", "statement": "For a PIL without lookups, permutations or connections, if StarkInfo::new succeeds and the identities hold in the table at every row, then the prover run with the programs StarkInfo::new made ends in a proof with the PIL's publics that the verifier accepts, unless the challenge point lies in the evaluation domain. The committed columns, the intermediate ones and the parts of the quotient lie in the first, third and fourth commitment in the order of their numbers. A row count other than the PIL's and steps that do not start at the extended domain are refused.", "quantifier": "all PILs without arguments, all StarkStructs with at most 24 extended bits, all tables, worker counts, query counts and hash permutations", "why_tests_cant": "The code generators, the column layout, the splitting into intermediate columns and both machines have to agree for every list of expressions; tests use a few PIL files.", "anchors": ["starky/src/starkinfo.rs:160-272", "starky/src/starkinfo_map.rs:10-253", "starky/src/starkinfo_cp_prover.rs:12-119", "starky/src/stark_gen.rs:188-372"]}
{"id": "C88", "title": "An accepted proof of a PIL satisfies the PIL at the challenge point", "statement": "For a PIL without arguments and the programs StarkInfo::new made from it, if the verifier accepts a proof then the values claimed at the challenge point satisfy the PIL's identities there, the opened rows lie under the roots and combine to the FRI values, every FRI layer folds the one before it and the last one has the degree asked for.", "quantifier": "all PILs without arguments, all proofs, all permutations", "why_tests_cant": "It speaks of every proof anyone could send, for every PIL; tests check honest proofs and a few spoiled ones.", "anchors": ["starky/src/starkinfo.rs:160-272", "starky/src/stark_verify.rs:23-190", "starky/src/fri.rs:160-284"]}
{"id": "C89", "title": "Exported column names stay different, and never become Global.L1", "statement": "fixup_name keeps a name with a dot, turns the last \"::\" of any other name into \".:\", and panics on a name with neither. Two names without a dot never become the same. Refuted: the column Global::L1 does not become the Global.L1 that StarkInfo::new looks for by default, and no name without a dot does, because one character of \"::\" is skipped instead of two.", "quantifier": "all names", "why_tests_cant": "Injectivity speaks of all pairs of names; that Global.L1 is never produced speaks of all names without a dot.", "anchors": ["recursion/src/pilcom/export.rs:185-195", "starky/src/starkinfo_Z.rs:14-25"]}
{"id": "C90", "title": "Line and column of an offset", "statement": "For every source text and every offset, offset_to_line_col on compute_line_starts gives as line one more than the number of line breaks before the offset and as column the number of bytes since the last of them; it never panics.", "quantifier": "all sources, all offsets", "why_tests_cant": "Binary search errors show only at particular offsets, such as the first byte of a line or past the last one.", "anchors": ["recursion/src/pilcom/export.rs:384-396"]}
{"id": "C91", "title": "The export of an analysed PIL ends and keeps its meaning", "statement": "For every analysed PIL whose intermediate polynomials are numbered without repetition and whose expressions refer to what is declared, export ends: the numbers computed beforehand for the intermediate polynomials are the positions of their expressions. In every row, over every table, the value of each exported expression is the value of the expression it was made from, and the polynomial identities, lookups, permutations, connections and publics are exported in the order of the source with the expressions they had.", "quantifier": "all analysed PILs, all tables, all rows", "why_tests_cant": "Two passes have to agree on the numbers of all expressions for every order of definitions, arrays and identities; tests compare a few exported files.", "anchors": ["recursion/src/pilcom/export.rs:43-155", "recursion/src/pilcom/export.rs:251-370", "recursion/src/pilcom/expression_counter.rs:9-68"]}
{"id": "C92", "title": "An analysed PIL that holds in every row is proved and accepted", "statement": "For every analysed PIL without arguments and all tables of committed and constant columns in which its identities are zero in every row, the PIL it is exported to is proved with the programs StarkInfo::new makes from it, and the verifier accepts the proof, unless the challenge point falls into the evaluation domain. Refuted: a PIL with a power of numbers is exported and makes StarkInfo::new panic; a public on a constant column is exported with a type on which the prover panics.", "quantifier": "all analysed PILs without arguments, all tables, all permutations of the hash", "why_tests_cant": "It joins the exporter, the setup, the prover and the verifier for every PIL and every table; tests run single examples.", "anchors": ["recursion/src/pilcom/export.rs:43-155", "starky/src/starkinfo.rs:160-272", "starky/src/stark_gen.rs:155-560", "starky/src/stark_verify.rs:23-190"]}
{"id": "C93", "title": "The constraint system of a circom circuit holds exactly if its R1CS does", "statement": "synthesize, called by a prover on any circuit with any witness, map and number of earlier variables, makes a constraint system that holds exactly if the R1CS holds of the wires, wire zero being one whatever the witness says. A setup always ends and sees the constraints and numbers of variables that every prover of the circuit has. A prover ends exactly if every wire but the first has a value; without a witness it panics. get_public_inputs returns the input variables of the prover in their order.", "quantifier": "all circuits, witnesses, maps, offsets, all rings of scalars", "why_tests_cant": "Two separate passes number the variables and the map and the offset shift them; an error shows only for particular numbers of inputs, maps and offsets.", "anchors": ["algebraic/src/circom_circuit.rs:59-157", "algebraic-gpu/src/circom_circuit.rs:55-160"]}
{"id": "C94", "title": "Scalars written as text are read back", "statement": "render_scalar_to_str writes every scalar in decimal without leading zeros, or with 16 hexadecimal digits for each limb, and render_str_to_scalar reads either back as the scalar; public inputs are read back in order. A decimal text is read modulo the field's modulus, and refused if it has a leading zero. Refuted: that a scalar has one text: N and N plus the modulus are read as the same public input.", "quantifier": "all moduli, all scalars, all texts of digits", "why_tests_cant": "The texts are unbounded; the aliases of a public input lie beyond the modulus and no test writes them.", "anchors": ["groth16/src/json_utils.rs:122-145", "algebraic/src/utils.rs:11-13", "algebraic/src/circom_circuit.rs:79-87"]}
{"id": "C95", "title": "With the GPU features the same texts are read, but only canonical ones", "statement": "render_fp_to_str writes the texts render_scalar_to_str writes, and render_str_to_fp reads them back as the same elements. Decimal texts are read as their number if it is below the modulus and refused otherwise; whatever text is read, the result is below the modulus. Refuted: that both accept the same texts: the texts 0x and +1_0 are zero and ten with the GPU features and refused without.", "quantifier": "all moduli, elements and texts", "why_tests_cant": "The two readers are compiled under different features and never run in one test; padding to whole bytes depends on the number of digits.", "anchors": ["groth16/src/json_utils.rs:202-255", "algebraic-gpu/src/circom_circuit.rs:16-21"]}
{"id": "C96", "title": "Verifying keys and proofs are read back from their files", "statement": "For every verifying key and every proof whose points are determined by their coordinates, to_verification_key and to_proof give back what serialize_vk and serialize_proof were given, in decimal and hexadecimal, with and without the GPU features. Refuted for the point at infinity: no file is read as a proof with such a point, because to_g1 and to_g2 always make a finite one.", "quantifier": "all keys with any number of inputs, all proofs, both forms of text", "why_tests_cant": "Swapped coordinates or fields show only for points whose coordinates differ; the point at infinity is never in the test files.", "anchors": ["groth16/src/json_utils.rs:147-200", "groth16/src/json_utils.rs:257-343"]}
{"id": "C97", "title": "The Goldilocks circuits compute in the field and its cubic extension", "statement": "For every prime r above 2^250, every assignment that satisfies GLNorm, GLMul, GLMulAdd, GLCMul, GLCMulAdd, GLInv or GLCInv on inputs of at most 120 bits has an output of 64-bit numbers that is, modulo p, the input, product, product plus third input or inverse. For inputs from -16p up to 2^68 the output the template computes satisfies it. Refuted: that the output is determined (an element below 2^32-1 has two 64-bit numbers), and that every small input has an output (a product with a factor below -16p has none).", "quantifier": "all primes above 2^250, all inputs in the stated ranges, all assignments of the inner signals", "why_tests_cant": "A witness generator produces one assignment; soundness speaks of all of them. Carries near the prime do not occur by chance.", "anchors": ["stark-circuits/circuits/gl.circom:6-308"]}
{"id": "C98", "title": "Openings in the circuit bind the row to the root", "statement": "Two openings of one place with the same root whose values are 64-bit words are the same row, unless they show a collision of the hash function; the row hash is the one of the Rust code. Refuted for the circuit that is generated, which checks no range: (x + 2^64*a, y - a) opens with the same path as (x, y), for a up to 15 within the range in which every arithmetic template has an output, and both are other field elements; and for any t there is a y' such that (t, y') opens.", "quantifier": "all primes, hash functions, keys, rows, siblings", "why_tests_cant": "Honest witnesses only contain words; a forged opening has to be constructed.", "anchors": ["stark-circuits/circuits/linearhash.circom:5-96", "stark-circuits/circuits/merkle.circom:5-107", "stark-circuits/circuits/merklehash.circom:7-37", "starky/src/linearhash_bn128.rs:23-69", "starky/src/stark_verifier_circom_onchain.rs:1319-1560"]}
{"id": "C99", "title": "A transcript output gives three words", "statement": "Every assignment of BN1toGL3 gives the three low words of the input or of the input plus r, and those of the input are always accepted. Refuted over BLS12-381: that they are determined. Every input below 2^255 - r has two different outputs.", "quantifier": "all primes above 2^254, all inputs and assignments", "why_tests_cant": "The witness generator never produces the second decomposition; inputs below 2^255 - r are about a tenth of all.", "anchors": ["stark-circuits/circuits/bn1togl3.circom:6-24"]}
{"id": "C100", "title": "Comparison with a constant and selection by bits", "statement": "CompConstant64 on 64 bits gives one if their number is above the constant and zero otherwise, and always has an assignment. TreeSelector gives the value at the place the key bits count to, and has an assignment for every list of the right length. Num2Bits of at most as many bits as the prime has is determined.", "quantifier": "all primes above 2^34, constants, bits, keys and values", "why_tests_cant": "2^64 inputs for each constant; the comparison is a sum of signed powers of two whose top bit decides.", "anchors": ["stark-circuits/circuits/compconstant64.circom:5-52", "stark-circuits/circuits/treeselector.circom:3-35"]}
{"id": "C101", "title": "The circuit's FRI query is the verifier's", "statement": "If a query of a FRI step has a satisfying assignment in the generated circuit (point, inverse FFT of the opened group, EvalPol at the challenge, comparison with the selected value), then fri.rs recomputes from the same group exactly the value it compares with; conversely if the verifier's value is the right one, and the step has at least two bits, there is an assignment. FFT with inv is the Rust ifft and EvalPol the Rust eval_pol.", "quantifier": "all primes above 2^250, step sizes up to 31 bits, query bits, opened groups, challenges, next values", "why_tests_cant": "The circuit is never compared with the Rust verifier on more than one proof; every query position and every assignment of inner signals counts.", "anchors": ["starky/src/stark_verifier_circom_onchain.rs:1319-1550", "stark-circuits/circuits/fft.circom:6-92", "stark-circuits/circuits/evalpol.circom:5-40", "starky/src/fri.rs:232-276"]}
{"id": "C102", "title": "The last polynomial is checked alike in circuit and verifier", "statement": "A last polynomial that the circuit accepts is accepted by the verifier. Refuted: the converse. The verifier skips one more coefficient, so with one coefficient allowed it accepts the polynomial X, for which the circuit has no assignment.", "quantifier": "all primes above 2^250, sizes up to 31 bits, degrees and polynomials", "why_tests_cant": "Honest proofs stay below the bound; the difference is one coefficient.", "anchors": ["starky/src/stark_verifier_circom_onchain.rs:1556-1583", "starky/src/fri.rs:278-295"]}
{"id": "C103", "title": "The generated circuit draws the verifier's challenges", "statement": "For every sequence of puts, getField and getPermutations calls the circuit generator makes, every assignment satisfying the statements it writes gives each challenge and each query position the value that TranscriptGL draws from the same absorbed values; and the generator writes them without panic for every sequence without empty permutations.", "quantifier": "all permutations of width 12, histories of operations, assignments, absorbed values", "why_tests_cant": "The circuit is compiled and run on one proof; buffering, pending outputs and leftover bits depend on the whole history of calls and on assignments an honest witness never has.", "anchors": ["starky/src/stark_verifier_circom.rs:40-152", "starky/src/stark_verifier_circom.rs:993-1020", "starky/src/transcript.rs:20-103"]}
{"id": "C104", "title": "The on-chain circuit's transcript", "statement": "For every history of puts, getField and getPermutations, an assignment satisfying the on-chain generator's statements reads challenge words of some number of at most 255 bits congruent modulo r to the element the Rust transcript draws, and with Num2Bits_strict exactly the Rust query positions. Refuted: over BLS12-381 (Num2Bits(255)), whatever the hash, a drawn element below 2^255 - r lets the prover take a different query position.", "quantifier": "all primes above 2^192, permutations of width 17, histories, assignments; refutation for every hash and absorbed value", "why_tests_cant": "The wrong position needs a chosen non-canonical decomposition that no honest witness generator computes.", "anchors": ["starky/src/stark_verifier_circom_onchain.rs:34-177", "starky/src/stark_verifier_circom_onchain.rs:998-1025", "starky/src/transcript_bn128.rs:20-133"]}
{"id": "C105", "title": "The circuit's arithmetic is execute_code", "statement": "For every code, if the circuit's inputs hold the verifier's values, every assignment that satisfies the statements written by unrollCode gives the signal it names as result the value execute_code computes. Refuted without side conditions: a literal below -2p is another element in circuit and verifier, and a primed Z is written as Z.", "quantifier": "all codes, dimensions, inputs and assignments", "why_tests_cant": "The text has a case for each operation and pair of dimensions and is only checked by compiling a few circuits; assignments other than the honest one are never tried.", "anchors": ["starky/src/stark_verifier_circom.rs:162-459", "starky/src/stark_verify.rs:138-213", "starky/src/types.rs:221-233"]}
{"id": "C106", "title": "VerifyEvaluations is the verifier's constraint check", "statement": "With the same inputs, for every satisfying assignment of the template's other signals, the enabled final comparison holds exactly if stark_verify.rs finds the constraint at the evaluation point equal to the quotient times the vanishing polynomial. The consecutive evaluation indices the template assumes are those the code generator assigns.", "quantifier": "all codes, sizes, numbers of quotient columns, inputs and assignments", "why_tests_cant": "Squaring chains and accumulators depend on sizes; a wrong acceptance needs evaluations no honest prover sends.", "anchors": ["starky/src/stark_verifier_circom.rs:460-557", "starky/src/stark_verify.rs:58-77", "starky/src/starkinfo_cp_ver.rs:9-118"]}
{"id": "C107", "title": "The circuits make the verifier's comparisons", "statement": "For every number of steps, queries and sizes, a proof whose comparisons in the on-chain circuit all agree agrees in every comparison of the Rust verifier (roots of all openings, queries, folds, last polynomial); likewise for the recursive circuit with at least two steps. Refuted: with one step the recursive circuit compares no root and no query, and with an empty second tree neither circuit compares its root although the verifier does.", "quantifier": "all FRI structures, numbers of queries and column counts, all outcomes of the comparisons", "why_tests_cant": "Tests use honest proofs, which agree everywhere: a missing comparison never shows.", "anchors": ["starky/src/stark_verifier_circom.rs:1285-1500", "starky/src/stark_verifier_circom_onchain.rs:1512-1588", "starky/src/stark_verify.rs:87-107", "starky/src/fri.rs:231-294"]}
{"id": "C108", "title": "The recursive circuit computes the verifier's query value", "statement": "For every program, layout, proof, openings, challenges and query position: if the signals of VerifyQuery and MapValues satisfy the generated statements on the same inputs, and stark_verify.rs computes a value for that position, then the output of the template is that value. This covers the point recomputed from the position's bits, both quotients x/(x-xi) and x/(x-w xi), and the reading of the committed values out of the flat openings.", "quantifier": "all starkinfo layouts, query codes, proofs, positions and satisfying assignments, domains up to 2^32", "why_tests_cant": "The circuit is text; a wrong root, a swapped section or a misplaced column only shows if a circuit is compiled and run on a proof that uses it.", "anchors": ["starky/src/stark_verifier_circom.rs:561-803", "starky/src/stark_verify.rs:87-130"]}
{"id": "C109", "title": "The on-chain circuit's arithmetic over the curve field is the verifier's", "statement": "For every prime field above 2^250, code, inputs and assignment of its signals: if the assignment satisfies the statements of the on-chain unrollCode and the magnitudes stay below 2^119, the result reduces to the element that execute_code computes, although the signals are integers modulo another prime that only products reduce. Refuted: the text for a sum or product of two base elements, or for a*b+c with only c in the extension, is satisfied by no assignment; after eleven doublings the final comparison is satisfied by none.", "quantifier": "all primes above 2^250, codes, inputs, assignments", "why_tests_cant": "The generated text is never compiled in the tests, and the failing dimensions and magnitudes depend on the PIL program.", "anchors": ["starky/src/stark_verifier_circom_onchain.rs:188-415", "stark-circuits/circuits/gl.circom:6-198", "starky/src/stark_verify.rs:138-213"]}
{"id": "C110", "title": "Acceptance by the on-chain VerifyEvaluations implies the verifier's constraint check", "statement": "For every prime field above 2^250, program, proof values that are words, and assignment: if the statements of the on-chain VerifyEvaluations hold with a nonzero enable (squarings to x^N, Z, the unrolled constraint with magnitudes below 2^119, the reassembled quotient of at most 2^50 parts, the normalised difference being zero), then check_constraint of stark_verify.rs on the same values does not fail: whenever it computes an answer, the answer is true.", "quantifier": "all primes above 2^250, codes, domains, quotient lists, inputs, assignments and enable values", "why_tests_cant": "Soundness quantifies over all assignments a cheating prover may choose in the curve's field, including unreduced and wrapped ones.", "anchors": ["starky/src/stark_verifier_circom_onchain.rs:416-530", "stark-circuits/circuits/gl.circom:6-143", "starky/src/stark_verify.rs:62-83"]}
{"id": "C111", "title": "The on-chain VerifyQuery computes the verifier's query value", "statement": "For every prime field above 2^250, program, layout, proof, openings, challenges and query position: if an assignment over that field satisfies the statements of the on-chain VerifyQuery and MapValues on the same inputs (words), with magnitudes below 2^119 in the unrolled query code, and stark_verify.rs computes a value for that position, then the normalised output of the template represents that value. No choice of the hidden signals (inverses, carries, unreduced words) yields another one.", "quantifier": "all primes above 2^250, starkinfo layouts, query codes, proofs, positions and satisfying assignments, domains up to 2^32", "why_tests_cant": "A test runs the honest witness only; a cheating prover chooses every intermediate signal, in a field where Goldilocks elements have many representatives.", "anchors": ["starky/src/stark_verifier_circom_onchain.rs:533-810", "stark-circuits/circuits/gl.circom:6-308", "starky/src/stark_verify.rs:87-130"]}
{"id": "C112", "title": "The on-chain circuit's output commits to the prover's address and the public inputs", "statement": "For every prime field above 2^250 and every assignment satisfying the hash part of Main: the address is below 2^160, every public input is a canonical Goldilocks element, and publicsHash is the 256-bit digest (taken modulo r) of exactly the address followed by the public inputs as 64-bit words, most significant bit first. The hash is determined by address and inputs, every canonical choice has one, and two different choices of equal length with one hash exhibit two messages whose digests agree modulo r.", "quantifier": "all primes above 2^250, hash functions, addresses, lists of public inputs and satisfying assignments", "why_tests_cant": "A test runs the honest witness; that a prover cannot pass a second representative of a public input, or shift bits between neighbouring fields, is a statement about all assignments.", "anchors": ["starky/src/stark_verifier_circom_onchain.rs:1780-1815", "stark-circuits/circuits/compconstant64.circom:5-56"]}
{"id": "C113", "title": "The public inputs of the recursive and aggregation circuits are those of the verified proofs", "statement": "Main of the generated recursive circuit accepts exactly the inputs that the StarkVerifier template accepts, and Main of the aggregation exactly the pairs it accepts; the public inputs publics and rootC of Main are those of the verified proofs. The acceptance part holds for structures without columns in the second tree and with columns in the third. The rest is false of the code: in the aggregation publics and rootC are connected to nothing, so every accepted assignment is accepted with any other public inputs; with the constant root written into the circuit the public rootC is free; with columns in the second tree two inputs of the verifier stay unconnected, and without columns in the third an input that does not exist is connected.", "quantifier": "all structures (columns, number of steps, options), all verifier statements and all assignments", "why_tests_cant": "Honest inputs pass whether or not the public inputs are connected; only a statement about all assignments shows that they are free.", "anchors": ["starky/src/stark_verifier_circom.rs:815-950", "starky/src/stark_verifier_circom.rs:1502-2111", "starky/src/prove.rs:134-139"]}
