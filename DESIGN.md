# Machine-checked model of eigen-zkvm: design

Source under study: `/repo` (Rust), read as text. The model is written in Rocq/Coq 8.16.1 under
`rocq/theories/`. Nothing in `/repo` is built or run. Properties are in `properties.jsonl`, the theorems that
settle them in `MANIFEST.json`, and the log of deliberately wrong programs in `seeded/LOG.jsonl`.

## 1. Layout and conventions

| kind of file | contents |
|---|---|
| `Base.v` | outcome type `res` (`Ok`, `Err`, `Panic`, `Hang`), indexing and assignment with bounds, monadic map and fold |
| `*Model.v` | executable Gallina transcriptions of the Rust functions; every definition cites file and lines; no proofs |
| `PosTables.v`, `BnTab*.v`, `BlsTab.v` | the Poseidon constants, copied literally from the source with their line numbers |
| `*Props.v` | only property theorems closed by `exact`, each with `Print Assumptions`, and their non-vacuity `Example`s |
| all others | lemmas, and the few definitions a statement needs (multisets, DFT sums, well-formedness predicates) |

* Machine words are `Z` with the wrap (`mod 2^64`) written out wherever the code can wrap.
* A panic is the value `Panic`, a returned error `Err`, a loop that never ends `Hang`. `&mut` arguments become
  returned values. Loops become structural recursion, folds, or fuel with an explicit out-of-fuel result.
* External functions are `Section` variables, so that after closing the section they are universally quantified
  arguments of the theorems. There are no axioms of our own.
* A property that is false of the faithful model is stated as `..._refuted`, next to the strongest positive theorem
  (`..._partial`, or a theorem with the explicit precondition). In `MANIFEST.json` it is `partial`.

## 2. What is modelled

| layer | source | model | properties |
|---|---|---|---|
| Goldilocks field, word level | `fields/src/field_gl.rs` | `GlModel`, `FrField` (wrapper with range proof) | C01-C06 |
| AVX2 / AVX-512 lanes | `fields/src/arch/x86_64/avx{2,512}_field_gl.rs` | `AvxModel` | C07 |
| cubic extension | `starky/src/f3g.rs` | `F3gModel` | C08-C10 |
| quintic extension | `starky/src/f5g.rs` | `F5gModel` | C84-C86 |
| polynomials, FFT, tables | `starky/src/{polutils,fft,constant,helper}.rs` | `PolyModel` | C11-C17 |
| parallel transposing FFT | `starky/src/{fft_p,fft_worker}.rs` | `FftpModel` | C50 |
| row hash, Merkle tree, transcript (Goldilocks) | `starky/src/{linearhash,merklehash,transcript}.rs` | `HashModel` | C19, C20, C22-C24 |
| the same with AVX-512 | `starky/src/{linearhash,merklehash}.rs` | `Hash512Model` | C67 |
| the same over BN254 / BLS12-381 | `starky/src/{linearhash,merklehash,transcript}_{bn128,bls12381}.rs` | `BnModel` | C21, C25, C59, C60 |
| Poseidon, scalar and vector | `starky/src/poseidon_opt.rs`, `starky/src/arch/x86_64/*`, `starky/src/poseidon_{bn128,bls12381}{,_opt}.rs` and their constants | `PosModel`, `PosBnModel`, tables | C65, C66, C68 |
| FRI | `starky/src/fri.rs` | `FriModel` | C26, C27, C48, C63, C75 |
| lookup, permutation, connection arguments | `starky/src/starkinfo.rs:324-409`, `starkinfo_Z.rs`, `helper.rs:16-23` | `ArgModel` | C76, C77, C78, C83 |
| expressions to code | `starky/src/starkinfo_codegen.rs`, `starky/src/types.rs` | `CodegenModel`, `PilNumModel` | C30-C32, C47 |
| choice of intermediate polynomials | `starky/src/starkinfo_cp_prover.rs` | `ImModel` | C33 |
| column layout | `starky/src/starkinfo_map.rs`, `Index`/`IndexVec` of `starkinfo_codegen.rs` | `MapModel` | C34, C49, C51 |
| interpreter | `starky/src/interpreter.rs`, `execute_code` of `stark_verify.rs` | `InterpModel` | C53, C54 |
| row loops | `calculate_exps`, `calculate_exps_parallel` of `starky/src/stark_gen.rs` | `ParModel` | C46, C79 |
| prover columns | `build_Zh_Inv`, `calculate_H1H2`, `calculate_Z`, `set_pol`, `get_pol` of `stark_gen.rs` | `ProverModel` | C18, C44, C45, C61 |
| verifier's constraint check | `starky/src/starkinfo_cp_ver.rs`, part of `stark_verify.rs` | `VerifierModel` | C62 |
| program after stage 3, prover and verifier | `starky/src/{starkinfo_cp_prover,starkinfo_fri_prover,starkinfo_fri_ver}.rs`, `fix_prover_code` of `starkinfo_map.rs`, `stark_gen.rs:370-557, 709-750`, `stark_verify.rs` | `StarkModel` | C69-C71, C74 |
| stages 1 to 3, setup, whole prover | `stark_gen.rs:190-370, 559-574, 669-707`, `stark_setup.rs` | `StageModel` | C72, C73, C80, C82, C83 |
| code of the publics | `starkinfo.rs:274-322`, `starkinfo_map.rs:244-246` | `PubModel` | C81 |
| setup from the PIL | `StarkInfo::new` (`starkinfo.rs:160-272`) and `StarkInfo::map` (`starkinfo_map.rs:10-253`), put together from the models of their parts | `InfoModel` | C87, C88 |
| export of an analysed PIL | `recursion/src/pilcom/{export,expression_counter}.rs`, without the `references` map | `ExportModel` | C89-C92 |
| circuit synthesis | `algebraic{,-gpu}/src/circom_circuit.rs` `get_public_inputs`, `synthesize` | `SynthModel` | C93 |
| Groth16 texts, keys and proofs | `groth16/src/json_utils.rs`, `repr_to_big` of `algebraic/src/utils.rs` and `algebraic-gpu/src/circom_circuit.rs`, without serde | `G16Model` | C94-C96 |
| polynomial files | `starky/src/polsarray.rs` | `PolsModel` | C29 |
| circuits of the recursion | `stark-circuits/circuits/{gl,evalpol,fft,bn1togl3,compconstant64,treeselector,linearhash,merkle,merklehash}.circom` | `CircModel` | C97-C100 |
| FRI in the on-chain circuit | `starky/src/stark_verifier_circom_onchain.rs:1319-1583`: what its text says of one query of a step and of the last polynomial | `CircFriModel` | C101, C102 |
| transcripts of the generated circuits | `starky/src/stark_verifier_circom.rs:40-152,993-1020` and `stark_verifier_circom_onchain.rs:34-177,998-1025`: the statements the generators write for puts, challenges and query positions | `CgenModel` | C103, C104 |
| arithmetic of the recursive circuit | `starky/src/stark_verifier_circom.rs:162-557`: unrollCode and VerifyEvaluations | `UnrollModel` | C105, C106 |
| comparisons of the generated circuits | `starky/src/stark_verifier_circom.rs:1285-1500`, `stark_verifier_circom_onchain.rs:1512-1588`, `stark_verify.rs:87-107`, `fri.rs:231-294`: which comparisons are made | `GcheckModel` | C107 |
| arithmetic of the on-chain circuit | `starky/src/stark_verifier_circom_onchain.rs:188-530`: unrollCode and VerifyEvaluations | `OnchModel` | C109, C110 |
| query of the on-chain circuit | `starky/src/stark_verifier_circom_onchain.rs:533-810`: VerifyQuery and MapValues | `OqueryModel` | C111 |
| public inputs of the on-chain circuit | `starky/src/stark_verifier_circom_onchain.rs:1780-1815`: their hash in Main | `PhashModel` | C112 |
| Main of the recursive and aggregation circuits | `starky/src/stark_verifier_circom.rs:815-950,1502-2111`: inputs and their connections | `AggModel` | C113 |
| query of the recursive circuit | `starky/src/stark_verifier_circom.rs:561-803`: VerifyQuery and MapValues | `VqueryModel` | C108 |
| proofs as JSON | `starky/src/{digest,serializer,zkin_join}.rs` | `SerModel` | C28, C43, C64 |
| circuit and witness files | `algebraic{,-gpu}/src/{reader,r1cs_file}.rs`, `witness/witness_calculator.rs` | `BinModel` | C40-C42 |
| R1CS to PLONK, execution file | `recursion/src/r1cs2plonk.rs`, `compressor12/compressor12_{setup,exec}.rs` | `PlonkModel` | C35, C36 |
| compressor layout | `recursion/src/compressor12/plonk_setup.rs` | `CompressorModel` | C37-C39, C52, C55-C58 |

Not modelled: command line tools and their wiring (`zkit`, `dsl_compile`, `zkvm`, `starky/src/prove.rs`), the Groth16
prover and verifier (bellman's), GPU and FFI code, the circom text generators (`stark_verifier_circom*.rs`, `pil2circom.rs`) but for the parts named above, `poseidon.circom`, powdr's analysis of PIL
sources, the WASM witness calculator itself, logging and timing.

Simplifications are stated in the comment of the definition they concern. The recurring ones:

* names of operators, references and sections are enumerations instead of strings;
* rayon iterators run in order; every closure in question touches only its own item, which is visible in the model because
  the item is its argument and result;
* `Vec` capacity is unbounded, allocation does not fail;
* dimension tags of `F3G` other than 1 and 3 (unreachable through the constructors) do not exist;
* a hash map is a function or association list; where the iteration order can show, it is a universally quantified permutation.

## 3. How the main theorems are proved

* **Fields.** `GlModel` keeps 64-bit words, carries and the two-round Montgomery reduction (R = 2^128). The value of a word is
  `w * R^-1 mod p`; interval arithmetic and congruences give C01. Primality of p is a Pocklington certificate, the inverse is
  Fermat, the square root the 2-adic invariant of Tonelli-Shanks. The extension is a ring by `ring` and a field because
  x^3-x-1 has no root (certificate for x^p).
* **FFT.** Decimation invariants by induction on the stages, generic over a field with roots of unity; `fft_p` adds the index
  arithmetic of the block transposes and of the worker split.
* **Merkle trees, transcripts, FRI.** Parametric in the permutation; completeness by induction on levels, binding by extracting a
  collision of the compression function from two openings. FRI completeness chains the FFT, folding and opening theorems.
* **Poseidon.** The vector code is a lane-wise image of the scalar code. The optimised form equals the textbook form over every
  commutative ring in which the table equations hold (`PosOpt.opt_is_ref`); for BN254 all sixteen widths of tables of the source are
  checked by evaluation and transferred by a homomorphism lemma (`PosHom`, `PosBig`).
* **Code generation and interpretation.** Straight-line code against the denotation of the expression over any commutative ring;
  compiled blocks against direct execution; chunked row loops against the sequential loop by a simulation between the whole
  memory and a chunk (`ParProof.rel`). `NStep` runs fixed code over the rows of a chunk when kept columns may also be written in the following row:
  a cell is either as before or already holds its final value, and the final value is the same from both rows. `NGen` supplies the values:
  a primed expression in one row is the plain expression in the next, so both writes agree.
* **STARK.** Generated code fills its section row by row with the value of its expression (`StarkGen`, `StarkSrc`, `StarkRow`); an expression
  whose leaves are columns is a polynomial in the point of the domain (`StarkPoly`, `StarkStep4`), vanishing on the trace domain when the trace is
  valid, hence divisible (`StarkMath`); the quotient is split and transformed (`StarkQuot`), evaluated (`StarkEval`), the verifier's constraint code
  is the same expression at the challenge point (`StarkCheck`); the FRI polynomial has low degree because every quotient by x - xi is exact
  (`StarkFri`, `StarkStep5`); `StarkTop` and `StarkDone` chain the phases with the Merkle, transcript and FRI theorems. `StarkExtend` follows a
  stage's sections through interpolation and commitment, `StarkStages` shows that the memory after stage 3 is what `StarkTop` asks for, `StarkPlain` that
  stages without generated columns always end. For soundness every step of the verifier is read backwards: `SoundFri` the layers, `SoundQuery` the
  query code against the closed formula of the FRI value, `SoundCheck` the check at the challenge point, `SoundTop` all of `stark_verify`. `StarkToy` and `StageToy` are the machines of the examples.
* **Arguments.** `ArgGen` gives the value of every generated expression on a row; the two constraints hold in all rows exactly when the column z
  is a running product (`ArgTop.lookup_meaning`). `ArgMath`, `ArgSound`, `ArgRows` are the algebra: a product of linear factors known at more points than factors
  determines the factors; "enough challenges" is `many m`, more than m distinct field elements, nested in the order the transcript draws them. `ArgLabel`
  shows the cell labels of connections distinct up to 2^32-1 columns of 2^32 rows.
* **Prover with arguments.** `ZStage` and `ArgStages` follow the memory through the steps: the kept numerators and denominators are the values of their
  expressions (C79), z is their running product (`z_runs`), and nothing written later disturbs what an identity reads (`den_final`), so the rows satisfy
  all identities (`third_rows`, `arg_stages`). `DenRel` relates two readings of an expression. `ArgRunToy` is a machine with a lookup, run by evaluation.
  `ArgHonest` shows that nothing but a missing value, a zero denominator or unequal products stops the stages (C82); `MixToy` is a machine whose lookup holds
  and is never proved. `HonestTable` reads the arguments in the committed table and carries them to the memory of each stage, so that a table in which they hold
  is proved (C83); `GenToy` is a machine whose lookup comes out of `generate_step2` and `generate_step3`.
* **From the PIL.** `InfoLayout` follows `map_section` over the columns in order of creation, `InfoCols` the dimensions `get_exp_dim` finds,
  `InfoPlace` combines them into the layout of C87; `InfoTop` derives from `StarkInfo::new` everything the prover and verifier theorems assume of a machine
  (generated code, widths, places of the columns), `InfoRun` and `InfoSound` apply them. `InfoToy` is a PIL with one intermediate expression.
* **Export.** `ExportTotal` shows that the positions counted beforehand are those of the expressions; `ExportProof` compares a semantics of powdr's
  expressions over the rows of a table (`ev`) with the denotation of the exported ones (`den`); `ExportPlain` and `ExportTop` derive what C87 assumes.
  Of powdr it is assumed that the elements of an array are numbered consecutively, and that `slice::binary_search` finds the place of an offset.
* **Circuits.** A template is a relation on integers modulo a prime (`CircModel`). Range checks bound both sides of each equation, so that it holds of the
  integers and then modulo p (`CircProof`); `CircFft` and `CircFri` compare with `idft` and the verifier's `fold_check`, in both directions. `CgenProof` and `CgenBn` run a generator beside the Rust transcript for every
  history of operations; `UnrollProof` and `UnrollEval` relate each signal to the value `execute_code` keeps under the same number. `PrimeCert` proves
  Pocklington's criterion and with it that the modulus of the BLS12-381 scalar field is prime, so that the hypotheses are met.
* **PLONK.** The conversion against satisfaction of the R1CS over any field, the compressor tables against gates and copy
  constraints, both directions.
* **Files.** Byte lists; exact characterisation of the accepted inputs.

## 4. Findings

Places where the faithful model does not have the property (all proved as theorems; line numbers in the model comments):

| property | finding |
|---|---|
| C03 | `inverse(0)` is `Some(0)` |
| C06 | `num_bits` and `u64::from(Fr)` work on the Montgomery form |
| C07 | vector negation of 0 stores p; vector division by 0 does not fail |
| C12 | one zero makes every output of the batch inversion zero |
| C16 | `log2_any` is wrong from 2^32 on |
| C17 | a cached table is indexed one past its end for `BR(2^k+1, k)`; the lock is then poisoned |
| C19 | a tree of one row has the zero digest as root |
| C20 | path and row lengths are not checked, so an inner node opens as a row |
| C21 | the BN254 tree verifier ignores row and index |
| C22, C23 | zero padding: rows or absorbed histories of different length collide |
| C25 | absorbing into the BN254 transcript leaves old output words available |
| C27 | the last FRI check starts one coefficient late |
| C28 | a digest equal to the modulus is read back as zero |
| C29 | `load` drops bytes of words split over two reads; a short file loops for ever |
| C35 | constant times combination loses a sign |
| C38 | the compressor reserves too few rows |
| C39 | public outputs expose private signals |
| C40 | 2^29 and more witness elements are lost; the GPU reader drops damaged elements silently |
| C41 | a file ending in a custom gate name loops for ever; BLS12-381 is taken for BN254 |
| C46 | the parallel row loop clears columns of output-only sections it does not write; a short last chunk panics |
| C47 | literals below -p get the wrong residue |
| C48 | query equality compares prefixes only |
| C49 | `IndexVec::get("f_2ns")` returns q_2ns |
| C50 | one row panics; above 2^24 rows stale output is read |
| C51 | the dimension of grand product columns is overwritten |
| C52, C55 | an undeclared custom gate has identifier 0 and is confused with the first declared one |
| C59 | rows whose Montgomery limbs are not Goldilocks elements make the BN254 tree panic |
| C60 | rows of four words are hashed differently when committed and when opened |
| C64 | FRI steps after the 31st and the Goldilocks prover address are lost; a file without the opened values of a later tree is accepted with empty openings |
| C65 | the AVX2 hash panics when asked for more than four words |
| C68 | the two BLS12-381 Poseidon implementations compute different functions |
| C75 | the FRI verifier does not check how many values the last layer has; with twice as many, the values of `x^(1/2)` are accepted as low degree |
| C78 | a connection of a single column cannot be generated: `get_ks(0)` indexes an empty vector |
| C81 | a public given by an expression declared after a public given by a cell makes the prover panic: `publics_code` is indexed with the position among all publics |
| C82 | a lookup whose f becomes an intermediate column of one component while t is kept with three (a product looked up in a column with a selector) can never be proved: `calculate_H1H2` compares `F3G` elements together with their `dim` |
| C84 | `-a` and `negate` panic for every element of the quintic extension of dimension 5: the cases of `Neg` are the dimensions 3 and 1 |
| C86 | `F5G::gt` is not a total order (neither of 1 and x is greater), and `F5G::lt` answers yes for equal elements and calls itself without end where `gt` holds |
| C89 | `fixup_name` turns `Global::L1` into `Global.:L1` (it skips one character of `::`, not two), so no column named with `::` is found as `Global.L1` |
| C92 | a power of numbers is exported as the operator `pow`, on which the code generator panics; a public on a constant column is exported as `constP`, on which the prover panics |
| C94 | `render_str_to_scalar` reads a decimal or hexadecimal public input modulo the field's modulus, so N and N + r are the same input: who identifies a statement by the text of its inputs can be given the same proof twice |
| C95 | with the GPU features the texts `0x` and `+1_0` are read as 0 and 10, without them both panic |
| C96 | the point at infinity is written by its coordinates and read back as a finite point |
| C97 | the output of a `gl.circom` template is any 64-bit number of its class, so an element below 2^32-1 has two; a product of a number below -16p has no assignment at all |
| C98 | the on-chain circuit never checks that opened values have 64 bits (its only `Num2Bits` are for queries, prover address and publics), and `LinearHash` adds three of them with weights 1, 2^64, 2^128: a prover can open (x + 2^64*a, y - a) where (x, y) was committed, and any first value at all with a suitable second |
| C99 | `BN1toGL3` decomposes into 255 bits without comparing with r: over BLS12-381 a transcript output below 2^255 - r gives two different challenges and the prover picks |
| C102 | `fri.rs` skips `max_deg + 1` coefficients of the last polynomial, the circuit `max_deg`: a proof the verifier accepts can have no witness |
| C104 | the on-chain generator takes query positions from `Num2Bits(255)` over BLS12-381: when a drawn element is below 2^255 - r the prover may add r and open other positions |
| C105 | `parse_pil_number` adds p once: a literal below -2p is read as another element than circom reads (-2p - 2^32 as -1), so circuit and verifier differ; unrollCode writes a primed `Z` as `Z` (no generated code has one) |
| C107 | the recursive generator writes the comparisons of Merkle roots and queries inside the loop over later FRI steps: with one step the circuit accepts any openings (the structures in the repository have three or more); neither circuit compares the root of an empty tree, so the prover may choose it and with it the challenges |
| C109 | the on-chain generator writes `a[0] + b[0]` for a sum of two base elements, `signal t = GLCMul1()(a, b)` for their product and an unmatched bracket for a*b+c with only c in the extension: no assignment satisfies them. It never reduces sums, and after eleven doublings of -1 the final `GLCNorm` has no solution: an honest proof of such a constraint is rejected |
| C113 | in the aggregation circuit the public inputs `publics` and `rootC` are connected to nothing: an aggregated proof can be claimed for any public inputs. With the constant root written into the circuit the public `rootC` is free. `s0_vals2` and `s0_siblings2` are never connected, `s0_vals3` and `s0_siblings3` always |

## 5. Trusted base

1. **Coq's kernel** (8.16.1), including `vm_compute`; `coqchk` rechecks without the VM.
2. **Print Assumptions.** Every theorem is "Closed under the global context" except `C68_bn128` and
   `C68_bn128_outcomes` (and what mentions the width tables): these evaluate the table equations with Bignums and list the
   primitive 63-bit integers `PrimInt63.*` and their specifications in `Coq.Numbers.Cyclic.Int63.Uint63` (standard library). `coqchk -o` also
   lists the seven parameters of `Coq.ssr.ssrunder`, which some library file loads; no theorem depends on them.
3. **The transcription.** Nothing ties the model to the code except reading. The evaluated model does reproduce the test vectors
   written in the repository's own unit tests for Poseidon (Goldilocks all-zero state, BN254 `[1]` and `[1,2]`, BLS12-381 `[1]`).
4. **Section variables** (arbitrary functions, quantified in the theorems):
   `perm`, `h512` (Goldilocks permutation, in `HashModel`, `FriModel`, `Hash512Model`), `hash_ex` (BN254/BLS12-381 Poseidon, in `BnModel`),
   `check_query` (the verifier's own query check passed to FRI), `order` (iteration order of a `HashMap`), `cposeidon` (table of
   compressor constants), `to_bf`/`of_bf` (digest conversion in the serialiser), the primes and limb counts of `BnModel`/`BinModel`,
   the prime and the hash of `CircModel`, the permutations of `CgenModel` (its templates `Poseidon(12)`, `Num2Bits_strict` of 64 bits and circomlib's
   `Num2Bits_strict` and `PoseidonEx` are outside the repository and taken as what their names say), `CMul` and `CMulAdd` of `UnrollModel` and `CInv` and `roots` of `VqueryModel` likewise, `sha` of `PhashModel` (circomlib's `Sha256`, any function), `V` of `AggModel` (what the template `StarkVerifier` states of its inputs, any predicate), the points with their coordinates in `G16Model` (`mk` of `xy` is assumed of the points a theorem is about).
   Properties of the hash (collision freeness) are never assumed: binding theorems produce the collision.
5. **Rust semantics as read**: little-endian machine; wrapping and panicking integer operations as documented; `sort_by` stable;
   `HashMap` and `BTreeMap` as finite maps; `Read::read` may return fewer bytes than asked where the code does not use `read_exact`;
   integer parsing and printing of the standard library; overflow checks are a parameter (`oc`) where both build modes matter.
6. **Circom as documented**: `===` and `<==` are equations modulo the prime, `<--` says nothing; circomlib's `Num2Bits` and `Bits2Num`.
7. **Foreign crates as documented**: `ff` derive (Montgomery form, `from_repr`, hexadecimal input), `num-bigint`, bellman's
   `ConstraintSystem` (`SynthModel`), `hex`, `serde_json` (printing and parsing are
   inverse on the value trees that occur), rayon, x86 intrinsics lane by lane as in Intel's manual.

## 6. Testing the theorems

`seeded/LOG.jsonl` has one line per deliberate change of a model definition in a scratch copy: the definition, the edit, the claim it
breaks and the theorems whose proofs failed. The tool rebuilds the affected files and admits each failing proof in turn, so that the
list shows which property theorems really depend on the changed line. A proof that does not end in time is marked so; where this is the only
failure, the field `evidence` names a counterexample that was evaluated with the changed definition.
