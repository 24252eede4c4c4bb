# Design

Formal model (Rocq/Coq 8.16.1) of go-AlgebraicProgram-SNARK, in `rocq/theories`.

- `*Model.v` transcribe the Go functions, one definition per function; each cites file and lines.
- `*Spec.v` hold the mathematical specifications the theorems are stated with.
- `*Proofs.v` (and `Cong`, `Ext`, `CurveGroup`, `Pocklington`, `OrderCert*`, ...) hold lemmas.
- `Props*.v` hold the property theorems `Cxx_...`, each followed by `Print Assumptions`, and the
  examples `Cxx_case` showing that the hypotheses can be met.

A theorem `..._refuted` states that a plausible claim fails, with a witness.
A theorem `..._partial` would state less than its property; there is none at present.

## Trusted base

- Coq's kernel (and `coqchk`), including its virtual machine: `vm_compute` is used for concrete
  computations; `coqchk` repeats them without it.
- `Print Assumptions` says "Closed under the global context" for every theorem listed in
  `MANIFEST.json`: no axioms, neither of the standard library nor our own.
- That the model says what the Go code does. There is no mechanical link: the Go text was read and
  transcribed, and never run. Comments cite the lines; the next section lists what was simplified.
  As a test of the transcription, `RepoTests.v` runs the model on the programs and expected results of
  the repository's own tests (testPrograms/codes.go and a few of package utils); they agree. These are
  tests, no claim rests on them.

## What is modelled, and how

General conventions. `*big.Int` is `Z`; Go's `Mod` is Euclidean, as `Z.modulo` for a positive modulus.
A panic, nil dereference or index out of range is `None` (or `Panic`). A loop with no evident bound
carries fuel, and running out of it is a separate result (`Running`), never confused with a value.
`int`, `uint` indices do not wrap around. Maps are association lists or functions; where Go iterates
over a map, the theorems hold for any order, or the code does not depend on it.

| Go | Model | Remarks |
|---|---|---|
| utils/finiteField.go | FqModel | all of it; random bytes are an argument |
| utils/polynomialField.go | PolyModel | all of it; the interpolation cache is threaded state |
| utils/avl.go | AvlModel, PrintModel | insert, remove, rebalancing with stored heights, iteration order, array conversion, printing |
| utils/sparsePolynomial.go | SparseModel | all of it, on AvlModel; the channel iterator is a list here, and a real interleaving in SchedModel |
| avl.go ChannelNodes with a concurrent writer | SchedModel | walker and updater interleaved step by step over a heap; sequentially consistent memory is assumed (the Go code has a data race, so the Go memory model promises less) |
| circuitcompiler/factorHandling.go, gate.go | FactorModel | factor lists are values; sharing of big.Int pointers between lists is not modelled. sort and SHA-256 are parameters: theorems hold for every hash and every function `sort` that permutes |
| circuitcompiler/ER1CS.go, circuit.go (index map) | R1csModel | dense and sparse rows, indices |
| ER1CS.go witness solvers | WitnessModel | dense and sparse |
| circuitcompiler/Programm.go, arithmetic part | ExprModel | expressions over inputs, `equal`, `return`, scalarBaseMultiply |
| circuitcompiler/circuit.go, Programm.go compile/Execute | CircuitModel | functions, variables, arrays, loops, if, built-ins, public inputs; function objects live in a heap. A shared big.Int is marked, and negating it ends in the separate result `Alias`, where the model stops (Go carries on with a changed variable) |
| circuitcompiler/lexer.go, rune_stack.go | LexerModel | source is valid UTF-8 and read bytewise; line numbers left out |
| circuitcompiler/parser.go | ParserModel | expressions and statements; files are a function from names to contents |
| zkSNARK/wol19.go | SnarkModel | setup, prover and verifier, dense and sparse, over abstract groups with the laws of SnarkSpec.lawful, and over CurveModel and PairModel (BnGroups); toxic waste is an argument |
| pairing/gfp2.go, gfp6.go, gfp12.go | TowerModel | all arithmetic, in-place updates checked against aliasing at the call sites |
| pairing/curve.go, twist.go, bn256.go | CurveModel | Jacobian arithmetic, scalar multiplication, (un)marshalling; random numbers are an argument |
| pairing/optate.go | PairModel, TowerModel | Miller loop, final exponentiation, pairing check |
| pairing/constants.go | CurveModel, TowerModel | copied; the properties C55, C62 pin them |

Not modelled: the file system (imported files are an argument), printing (except String of trees and group elements, PrintModel), `init`-time reading of the
environment, timing, memory, the random generator, the Go scheduler except in SchedModel.

Assumptions that appear as hypotheses of theorems (nothing is assumed globally):

- `lawful q G` (SnarkSpec): the group operations act on exponents modulo q as their names say, in-place
  addition only when the operands are not equal, the pairing is bilinear and non-degenerate. The
  exponents themselves are an instance; the groups of package bn256 simulate that instance (BnGroups), so
  C70-C73 are free of this assumption.
- a prime field where inverses matter, `Order` and `P` being proved prime (C55).
- identifiers of gates pairwise different, where a collision of the hash would make the claim false.

## Properties and how they are proved

- **C01 Field ring operations are exact and canonical** - FqModel: big.Int operations on Z with Z.modulo (Go's Mod is Euclidean). Direct proof.
- **C02 Inverse and Div** - FqModel.finv: ModInverse by an extended-Euclid loop with explicit nil; correctness of the loop by induction; prime q. Aborts are None.
- **C03 Exponentiation** - FqModel.fexp: the square-and-multiply loop on the reduced exponent; loop invariant; counterexample by vm_compute for e>=q.
- **C04 Equality and normalisation of representatives** - FqModel: direct.
- **C05 Dense polynomial evaluation** - FqModel.feval_poly: structural recursion as in the source; compared with a separate sum-of-monomials specification.
- **C06 Scalar product** - Fold, compared with a separate sum.
- **C07 Random field elements** - Byte string as argument; positional value bounded.
- **C08 Dense polynomial ring operations** - PolyModel: lists of Z; convolution specification on coefficients.
- **C09 Dense polynomial division** - PolyModel.pdiv: the shrinking-remainder loop as fuel = length; invariant a = b*quo+rem.
- **C10 Domain polynomial** - Induction on n; prime q for the exact root set.
- **C11 Lagrange interpolation goes through its points** - Basis polynomials evaluate to Kronecker delta; sum.
- **C12 Interpolation caching is invisible** - Cache as an association list threaded through calls; invariant cached entry = fresh computation; induction over call histories.
- **C13 Single-point polynomials** - Product of factors; evaluation.
- **C14 Transpose and linear combination** - Index characterisation.
- **C15 AVL tree is a finite map** - AvlModel: node tree with stored heights, the source's rotations (pop_node/push_node); refinement to a key->value function; induction over operation lists.
- **C16 AVL rebalancing terminates** - Fuelled loop; termination for arbitrary stored heights by a lexicographic measure (never-moved nodes, position).
- **C17 AVL traversal order** - In-order lists; sortedness from the search-tree invariant.
- **C18 No-overwrite insertion** - Case analysis on the map refinement.
- **C19 Array conversion** - Fold over entries.
- **C20 Sparse polynomial ring operations** - SparseModel on the tree model; coefficient specification through the map refinement.
- **C21 Sparse polynomial evaluation** - Power-table invariant (every entry k holds x^k), key 1 always present.
- **C22 Sparse polynomial division** - Fuelled loop with a distinct out-of-fuel value; termination on degree.
- **C23 Sparse interpolation** - Compared with the dense model.
- **C24 In-place scaling while iterating is schedule independent** - Small-step interleaving of a walker (stack of frames) and an updater over a heap tree; invariant over all schedules.
- **C25 Combine is schedule dependent when a weight is zero** - Same machine; schedule exhibited.
- **C26 Sparse scalar product** - Direct.
- **C27 Variable numbering of the constraint system** - R1CSModel: index map as association list with Go's zero default; counterexample for duplicates.
- **C28 Rows mean the gate equation** - Row evaluation vs gate equation.
- **C29 Dense and sparse constraint generation agree** - Row agreement under distinct identifiers.
- **C30 Dense witness solver is sound** - WitnessModel: solver as fold over gates with option/err; invariant: all processed gates satisfied and their variables set.
- **C31 Sparse witness solver is sound but rejects valid inputs** - Same; counterexample by vm_compute.
- **C32 Witness respects the inputs** - Frame property of the solver.
- **C33 Bit decomposition constraints** - Algebra over a prime field and explicit pair of decompositions.
- **C34 Factor sums, products, negation and inversion preserve value** - FactorModel; value function over assignments.
- **C35 Common-factor extraction** - GCD divides all; exact division.
- **C36 addGateConstraint scales wrongly** - Counterexample.
- **C37 Equality after multiplication of the same operands is dropped** - Hash as an arbitrary function; identifier equality for every hash.
- **C38 Gate identifiers are commutative** - Same.
- **C39 Lexing is lossless and terminates on the language's alphabet** - LexModel over character lists with fuel.
- **C40 Lexer diverges outside its alphabet** - Non-termination: for every fuel, out-of-fuel.
- **C41 Expressions are right associative without precedence** - ParseModel; induction over the operator sequence.
- **C42 Bracket and separator splitting** - Induction.
- **C43 Combined constraint polynomial** - SnarkModel on top of PolyModel.
- **C44 No proof for a false witness** - From C43.
- **C45 Completeness of the dense prover** - G1,G2,GT as exponents modulo the group order, pairing = product; X an arbitrary function.
- **C46 Verifier accepts false statements** - Explicit forged proof from public parameters; Euler criterion with a proved-prime order.
- **C47 Single-gate programs cannot be proved** - Length computation.
- **C48 Sparse setup uses another interpolation degree** - vm_compute counterexample on a concrete system.
- **C49 Public signals are checked in number** - Direct.
- **C50 Extension field arithmetic** - Ring identities modulo P.
- **C51 Curve points stay on the curve and follow the chord-tangent law** - Field identities in Fp.
- **C52 In-place doubling is wrong** - Explicit store-order model; exact condition from the Jacobian formulas; generator counterexamples for both curves.
- **C53 G1 serialisation** - Byte-list model.
- **C54 GT serialisation is not injective** - Counterexample.
- **C55 Curve constants** - Pocklington certificates checked in Coq; vm_compute.
- **C56 Arithmetic programs compile to equivalent constraints** - ExprModel; an invariant relating collected gates to the value of each operand, by induction over expressions.
- **C57 Division by a constant zero** - Counterexample.
- **C58 Constraint system of a program is equivalent to the program** - C56 composed with row generation (C28).
- **C59 The dense solver accepts exactly the inputs that satisfy the program** - C58 composed with the solver theorems (C30).
- **C60 Sums accumulated in place** - Fold of the in-place additions; invariant: partial sum; counterexample.
- **C62 Frobenius maps are powers** - Frobenius as p-th power: Fermat in Fp, then level by level; constants by evaluation.
- **C63 The final exponentiation is the power (p^12-1)/Order** - Addition chain followed on exponents; (p^12-1)/Order by evaluation.
- **C64 G2 serialisation** - Byte-list model; subgroup check as scalar multiplication by Order.
- **C65 Scalar multiplication** - Double-and-add invariant over the bits; group law from C51.
- **C66 G1 and G2 have Order points** - Point counts: cosets of the multiples of the generator (on the twist, of two points killed by Order and one of order 10069) would be more points than the curves can have.
- **C67 Pair is bilinear and not degenerate** - Line functions as functions on the curve; the reduced ate pairing of multiples of the generators is bilinear by the vanishing of a product of lines over the multiples; the Miller loop of the code computes it step by step; non-degeneracy by a certificate for the value at the generators, checked by the kernel on digit arithmetic (HexNum).
- **C68 PairingCheck** - Induction over the lists; C67 for every factor.
- **C69 The group GT** - Values are powers of e; tower arithmetic from C50; counterexamples.
- **C70 Honest proofs with the real groups** - BnGroups: the operations of package bn256 act on exponents (C51, C65-C69); SnarkSim: runs over two groups related that way go alike, so C45 carries over.
- **C71 Forged proofs with the real groups** - C46 carried over by SnarkSim; C71_case evaluates a whole key and proof.
- **C72 What VerifyProof decides** - The pairing equation on exponents, carried over by SnarkSim.
- **C73 Proofs are malleable** - Both sides of C72's equation change by the same amount.
- **C74 Compiled programs enforce their meaning** - LangSpec: one big-step semantics over an abstract domain of values. LangHeap/LangTree/LangScope/LangBuild: preCompile lays out function objects as the scopes demand; LangRun: compile over that heap follows the semantics over symbolic values (factor lists), by induction on fuel; LangField: the symbolic and the field semantics agree on every satisfying assignment.
- **C75 Compiled programs can be satisfied** - As C74; every new gate defines a fresh wire, so the assignment is extended gate by gate.
- **C76 If and else** - Evaluation of the model on the texts.
- **C77 Return inside a loop** - Evaluation of the model.
- **C78 Counting down** - Invariant of the heap over the rounds of the loop, induction on the fuel.
- **C79 Constraints inside conditions** - Evaluation; the assignment is checked against the gates.
- **C80 Variables keep their values** - Evaluation; the in-place negation is the outcome Alias of CircuitModel.
- **C81 From program text to witness** - LangGood: the gates a compiled program leaves are in solvable order and the result is a number, a wire or the sum of a gate; GoodSystem: R1CS generation and the solver for any such gate list; composed with C74/C75 in PropsProgram.
- **C82 From program to accepted proof** - Composition of C81 with C45/C70 and C43/C44; SystemShape: generated systems are well sized and exponent free, SolveRange: computed witnesses are non-negative.
- **C83 Program text is read as the program it is** - Grammar over tokens in SourceSpec. By induction on the token count statementMode reads each block; lines collapsed by NextToken keep a text in the grammar; encodings are injective. Example: a text with comments; the program of C81.
- **C84 Every program can be written and is read back** - Printer in WriteSpec; its tokens derive in the grammar and its text lexes to its tokens; then C83.
- **C85 Well-formed programs are accepted** - LangAccept: induction on the encoding of a block shows that preCompile and contextCheck succeed with enough fuel (declared names are found, new ones are free); conversely a public{} met elsewhere panics. Examples: the program of C81; one with public{} in another function.
- **C86 Compiling is evaluation over factor lists** - Refinement from LangBuild one way; the other way (LangTotal, LangEnds) by induction on the evaluation, with the heap invariant of LangRun. When operations are defined: OpsProofs. Example: the program of C81 evaluated rule by rule; refuted: (x*k)*y with k = 0.
- **C87 Elements of arrays are separate variables** - Names of elements are injective in array and indices (decimal numbers have no brackets, names of the grammar neither). The statements are about the semantics of LangSpec, which C86 ties to Execute and C74/C75 to the gates. Example: a loop that assigns elements at computed indices, from text to a satisfying assignment over the bn256 field.
- **C88 Programs in several files** - Grammar of programs with files in ImportSpec, with the contents of the files as a function. Reading is by induction on the derivation (imports do not shorten the token list); more steps never change a result, so one list of constraints serves all step numbers. Example: the program of C81 in two files compiles to the same state as in one; two files importing each other give no result for any number of steps.
- **C89 Numbers are read as decimal numerals** - NumeralSpec says what a decimal numeral is (digits, characters, sign) and which number it denotes; the reader is shown to return exactly that value, and to abort on all other texts. Example: "-0105" modulo 97, and texts with an underscore, no digits, two signs, a base prefix.
- **C90 The sparse combined polynomial and sparse proofs of violated systems** - Row values are dot products of the entries of the row trees with the assignment (SparseSnarkSpec); the tree is compared with them at every gate (C90_combined), with the dense polynomial coefficient by coefficient (C90_dense, 2n-1 <= q), and the division by the domain is shown to leave an empty remainder exactly for satisfied systems, so violated ones give Panic once the division has enough rounds and a proof for no number of rounds (C90_no_proof). Example: y*y=z, z*z=u with u right and wrong over 101 elements.
- **C91 When sparse proofs are accepted** - C91_honest states the verdict as a congruence between interpolated row values; C91_accepted and C91_rejected draw the two conclusions (a nonzero polynomial of degree 2m-2 has at most 2m-2 roots). This says exactly when the defect of C48 shows. Examples: a system with three gates and three variables (accepted), one with two gates and four variables (rejected).
- **C92 Sparse proofs with the real groups** - As for C70: the sparse setup and prover are run with two groups related elementwise (SparseSim), so every run with package bn256 corresponds to one with exponents, where C91 gives the verdict. Examples with the real groups: three gates and three variables (accepted), two gates and four variables (the honest proof is rejected).
- **C93 From a program to a sparse proof** - The generated sparse rows are trees with keys below the number of variables (by induction over the insertions), so C90, C91 and C92 apply; C28 and C29 carry the solutions over from the dense system, C81 gives the run of the program. The vector in C93_honest and C93_bn256 comes from CalculateWitness: when CalculateSparseWitness returns it too is said exactly in C95; what it returns is correct (C93_solver). Example: a program with five gates and five variables, both solvers, proof accepted.
- **C94 What the randomization row changes** - The wide index map is the old one with two entries appended (numbered names), so every old vector keeps its entries and gets two zeros; sparse rows do not change at all. The solver is followed step by step (relation sim in RandProofs): every scan, total and assignment on the old part gives the same, then the last row has exactly one unknown. The verdict comes from C45_honest, C70_honest and C91_honest: the exponent values are 0, ..., 0, t, so the interpolants are t L and X(g^t) L. If the solver without randomization panics, nothing is said about the other one. C94_program combines it with C81.
- **C95 When the sparse solver returns what the dense one returns** - Both solvers are followed row by row from the same state: a scan of the vector and of the tree meet the same entries in the same order, so they stop, assign bits and collect unknowns alike; what remains is the check of a row without unknowns, where the sparse one compares the unreduced output sum (residues). Coefficients that differ by multiples of q are exchanged first (alike). Generated sparse entries lie strictly between -q and q, generated dense entries are non-zero modulo q if the gate's coefficients are (gate_plain), so both are zero at the same places. Examples: a program with the equality of two sums, once below and once above the modulus.
- **C96 SPLIT and the solver** - Invariant over the rows: known wires have the values of the solution, exactly since both are reduced. The bits of an input are filled in before the first row, the others when their own row is scanned (from the integer stored for the split wire), where the row then is a check; the sum row is a check. Which bits are known in between is left open (between the names needed so far and those plus all bits), so splits of bits are covered. C96_split builds the solution of the larger list from that of the smaller. A bit first occurs in its own row with coefficient 1 (C96_first), so C30 makes what the solver returns a solution (C96_sound); hence also a program failing without the SPLIT fails with it. The sparse solver is reduced to the dense one (C96_sparse, from C95).
- **C97 Missing values, negative numbers and unusual declarations** - Evaluation of the model on the texts; C97_return by unfolding one step of compile. Globals are evaluated where they are used (example C97_global).
- **C98 The sudoku program checks products, not sudokus** - LangEval.v: an evaluator for LangSpec programs that keeps the inputs open, proved right against program_means, and a checker for enc_prog. Evaluating it on the program gives 81 + 27 equalities; C81 carries them to the system and the solver. Range: a product over a prime field vanishes iff a factor does; products are below 9^9 < q, so congruence is equality. The last bare return of the text is written return 1 (same meaning, C97_return). C98_case compiles the text to 966 gates over the group order.
- **C99 The inputs determine the witness, except for 0/0** - The solver, run on the inputs of either vector, returns a vector congruent to it (sys_finds, with prog_values for the divisors), and it is run on the same numbers after replacing the second vector's inputs by the first one's. The counterexample compiles the text over the group order (2 gates) and writes the two rows out as d*y = x, d*u = t. C99_case: inputs 6, 3, 5 and two different satisfying vectors.
- **C100 What the key pair example proves** - C81 with the program's meaning written out; the x coordinate up to sign from the curve equation and the exponents of BnGroups (no point has x = 0: its triple would be infinity); proofs by C70_honest, the data of the two rows being interpolated by lines. The last bare return of the text is written return 1 (C97_return). C100_case: private key 42.
- **C101 Example programs compute their polynomials for all inputs** - C81 and the evaluator of LangEval, whose result is compared with the polynomial by ring; that the value is not a bare number because the polynomial is not constant modulo q. The array declaration is matched by enc_array directly. C101_case_first, C101_case_loop, C101_case_nested run the three texts.
- **C102 Printed sparse arrays** - PrintModel on AvlModel; the text is the written list of C17's descending entries, and writing is injective since decimals contain neither commas nor brackets.
- **C103 Printed group elements** - PrintModel on CurveModel; the texts are injective in the printed numbers; MakeAffine by C51's lemmas, no finite point having x = 0 (C100's x_zero), so none prints as infinity, (0, 1). C103_case: infinity, the generator, a point with third coordinate other than 1, one of GT.
- **C104 Chains of if, else if and else are read in order** - Induction over the arms, with block_read and cond_parse (C83) for their parts. Only reading is claimed; what the compiler makes of else arms is C76's concern. C104_case, C104_sample: a text with two else-ifs.
- **C105 Chains run every arm whose condition holds, and always the else** - Induction over the arms with LangBuild's invariant of objects under construction (own, tree): what one arm builds is left alone by the others. C105_case: a chain of three arms whose first and last are run.
- **C106 A return inside a loop or a called function never ends the caller** - Case analysis of the branches for calls, then induction over the rounds of the loop. C106_case: the loop of C77, whose body returns, runs twice and gives nothing.
- **C107 Compiling only appends gates, and no identifier is used twice** - Invariant (grew: gates appended under fresh identifiers) by induction over the steps of compile, through every branch. C107_case: a product asked for twice is one gate; C107_condition_case: a condition with gates that does not hold.
- **C108 Running a program leaves functions and blocks as they were parsed** - Invariant (kept: objects agree but for the targets of declared names) by induction over the steps of compile; copies and values are at new addresses. C108_case: the program of C77, which assigns to a variable of main.
- **C109 When a compiled program gets no constraint system** - C27_aborts_iff with the distinct identifiers of C107. C109_case: a program with a SPLIT that gets its numbering.
- **C110 Names of the bits of SPLIT** - A string of digits followed by a string is cut where the digits end, or by length. C110_case: names of an input and of a gate.
- **C111 SPLIT of a multiple of a wire** - Inversion of the SPLIT branch; for the refutation the sum gate of the compiled program, and a satisfying assignment with x = 5. C111_case: x and 2*x.
- **C112 What follows a return** - C112_last: what the trimming of breaks leaves, by cases. C112_function, C112_main: induction on the tasks before the return; every return that compiles says so. C112_case, C112_last_case.

## Findings

Each is a theorem or an example unless marked (read).

Fields and polynomials
- `Exp` reduces the exponent modulo q instead of q-1 (C03_exp_large_exponent_refuted).
- `Rand` does not reach the whole field (C07_rand_covers_field_refuted).
- `MulSimple` is not the product (C08_mul_simple_is_product_refuted).
- Division with a leading coefficient divisible by q misbehaves (C09_div_zero_leading_coefficient_refuted).
- AVL `Remove` of an absent key can lose entries (C15_remove_absent_refuted).
- `ToArray` with the largest power panics (C19); sparse evaluation is wrong at multiples of q (C21_multiple_of_q_refuted);
  the sparse scalar product is not reduced (C26_reduced_refuted).
- Combining trees while iterating depends on the schedule when a weight is zero (C25_schedule_independent_refuted).

Compiler
- A public input listed twice breaks the variable numbering (C27_repeated_public_refuted); repeated
  factors overwrite in dense rows and add in sparse ones (C28_repeated_refuted, C29_repeated_refuted);
  a number named like a wire is taken for it (C29_number_name_refuted); SPLIT of a number compares with
  the constant one (C28_split_number_refuted); SPLIT takes the digits of the integer stored for the wire, so inputs
  that are equal modulo q but outside [0,q) are rejected or get other bits (C96_range_refuted, C96_digits_refuted).
- The dense solver stores a bit without its coefficient (C30_bit_coefficient_refuted); the sparse solver
  compares a reduced value with an unreduced one and so refuses valid inputs (exactly when: C95; C31_complete_refuted, C95_honest_refuted,
  C59_sparse_refuted); unknown input names are written to wire 0 (C32_unknown_name_refuted).
- addGateConstraint scales wrongly (C36_sum_refuted); `equal` after a product of the same operands is
  dropped (C37); general factor products lose terms (C34_mul_general_refuted); scalarMultiplyFactors
  changes a copy only (C34_scalar_multiply_refuted); `0*x` times y aborts (C35);
  division by a constant zero compiles (C57_quotient_refuted).
- negateFactors changes shared big.Int values in place: `x - a` changes a number variable `a` (C80_subtract_refuted);
  `x - scalarBaseMultiply(y)` negates the global bigOne (excluded by hypothesis in C56, `Alias` in CircuitModel).
- A program that compiles may have no constraint system: SPLIT of a call of a function with an empty return names a bit "1", and
  GatesToR1CS panics (C109).
- SPLIT(2*x) splits x (C111_multiple_refuted).
- Bits of numbers share names: bit 11 of SPLIT(1) is bit 1 of SPLIT(11) (C110_numbers_refuted).
- An else branch is executed though the if was taken, nested ifs panic (C76; for all chains: C105); return in a loop does not return
  (C77; for all loops: C106); countdown loops never end (C78); constraints inside conditions are lost (C79); a name means the
  inner variable before its declaration (C80).
- `return` without a value counts as the number 1, a call of a function without return panics inside an expression
  (C97_return, C97_no_value_refuted, C97_no_return_refuted); `x-(x+3)` is the number -3, which comparisons tell apart from
  q-3 (C97_negative_refuted).
- The sudoku program of testPrograms accepts grids that are no sudokus: it compares products, and 9*4*4 = 3*6*8
  (C98_refuted; what it does check is C98_system, C98_solver).
- x/y with x = y = 0 leaves the quotient free: CalculateWitness fails, but a prover who builds the vector by hand can
  claim any result (C99_quotient_refuted) and get a public claim equal((x/y)*u,z) accepted (C99_claim_refuted). Where no divisor is 0 the inputs determine every wire (C99_unique).
- The key pair program of testPrograms: k and Order - k have the same public key (C100_two_keys); the correct proof is
  rejected unless a condition on the setup's secret holds, e.g. always for x = 2 (C100_honest). Neither input is declared
  public, so the verifier is given 1 only and learns nothing about a particular key.
- String of equal points may differ: negatives of points with third coordinate 1 print a negative y (C103_g1_refuted), and
  G2 prints the projective coordinates, which Marshal changes in its receiver (C103_g2_refuted).
- AND, NAND, OR and NOT are reserved, but a call of one always panics (C97_logic); the bits of SPLIT have names that the
  program cannot use (C97_bits_refuted).
- The lexer never ends on `$`, `@`, `%`, single `&`, `|`, `!`, or an unterminated string (C40); on invalid
  UTF-8 inside a string Rewind steps back too far (read). A blank at the end of the source yields an empty
  identifier token (C39_empty_token_refuted).
- No operator precedence, right associativity (C41_precedence_refuted): `a-b-c` is `a-(b-c)`.
- Unmatched brackets can pass: `a b)` is read as `b` (C42_unmatched_refuted).
- A product or quotient with an operand all of whose factors are 0, as `(x*k)*y` in the first round of a loop
  with k from 0, panics in extractGCD (C86_zero_refuted).
- `public{}` outside the body of main itself panics (C85_publics).
- A trailing `if` in a body panics (C83_if_last_refuted); `var x` without `=` silently drops the rest and leaves
  Parse waiting (C83_var_dropped, C83_var_refuted). `x += e` panics
  (C83_compound_refuted), `var x += e` is read as `var x = e` (C97_var_refuted); `var b[2] = {..}` drops the rest of the body (C97_size_refuted).
- Files that import each other are read without end (C88_cycle).

Proof system
- In-place doubling of curve points is wrong (C52_double_refuted, C52_double_twist_refuted), so sums accumulated in place are wrong
  when a partial sum meets an equal summand (C60_double_refuted); the hypotheses `prover_safe` and
  `verifier_safe` of C45 exclude this.
- With base-multiplication terms an honest proof is rejected for some setups (C45_base_refuted).
- The randomization row has an exponent part, so with `randomize` an honest proof is rejected unless the value drawn and the
  secret point happen to fit (C94_verdict, C94_bn256; C94_randomized_refuted, C94_bn256_condition).
- VerifyProof leaves PiF unbound: a proof that a non-square is a square can be forged (C46); with the real groups and a
  computed example: that 5 is a cube (C71). Proofs are malleable (C73).
- One-gate programs cannot be proved (C47). The sparse setup interpolates over another domain
  (C48_rejected_refuted): with fewer gates than variables an honest sparse proof is accepted only for a few
  secret points, unless the combined polynomial happens to vanish there (C91_rejected).
- Mul with a negative scalar is wrong (C65_negative_refuted); GT.Unmarshal accepts unreduced values and
  non-members (C54_not_injective_refuted, C54_membership_refuted); `sixuPlus2NAF` is not in non-adjacent
  form (C55_naf_refuted). ZeroGT is not the neutral element of GT, and GT.ScalarMult by -1 is the identity
  (C69_zero_refuted, C69_negative_refuted).
- Unmarshal leaves its receiver half written when it fails; MakeAffine's shortcut keeps a stale t
  (hypothesis t_ready of C67 and C68: t = 1 if z = 1);
  G1.X of infinity is 0; gfP12.Conjugate returns its argument (read).

## Testing the theorems

`seeded/LOG.jsonl` records edits to the model that imitate realistic bugs, made in a scratch copy: the
definition edited, the edit, the claim it breaks and the theorems that no longer prove.
