{"id": "C01", "title": "Field ring operations are exact and canonical", "statement": "Fq.Add, Sub, Mul, Neg, Double, Square and MulScalar return the unique representative in [0,q) of the exact integer result, whatever the sign and size of the (possibly unreduced) operands.", "quantifier": "all integers a, b (any sign, any size) and every modulus q > 0", "why_tests_cant": "The input space (arbitrary-precision integers) is infinite; a test settles finitely many points of it.", "anchors": ["utils/finiteField.go:Add", "utils/finiteField.go:Sub", "utils/finiteField.go:Mul", "utils/finiteField.go:Neg", "utils/finiteField.go:Double", "utils/finiteField.go:Square", "utils/finiteField.go:MulScalar"]}
{"id": "C02", "title": "Inverse and Div", "statement": "For prime q and a not divisible by q, Inverse(a) is the representative in [0,q) with a*Inverse(a)=1 mod q, and Div(a,b)*b=a mod q. Outside that domain there is no error value: Inverse(0)=0 and Div(a,0)=0, while a non-zero multiple of q makes Inverse/Div abort (nil dereference).", "quantifier": "all integers a, b and every prime q", "why_tests_cant": "The input space (arbitrary-precision integers) is infinite; a test settles finitely many points of it.", "anchors": ["utils/finiteField.go:Inverse", "utils/finiteField.go:Div"]}
{"id": "C03", "title": "Exponentiation", "statement": "ExpInt(b,e)=b^e mod q for every uint e. Exp(b,e)=b^e mod q for 0<=e<q; for e>=q Exp reduces the exponent modulo q (not q-1) first and therefore returns b^(e mod q), which is not b^e in general.", "quantifier": "all bases, all exponents, all moduli q>1", "why_tests_cant": "The input space (arbitrary-precision integers) is infinite; a test settles finitely many points of it.", "anchors": ["utils/finiteField.go:Exp", "utils/finiteField.go:ExpInt"]}
{"id": "C04", "title": "Equality and normalisation of representatives", "statement": "Affine(a) is the representative of a in [0,q); Equal(a,b) holds exactly when a and b are congruent modulo q; IsZero(a) holds exactly when the integer a is 0, so a non-zero multiple of q is Equal to 0 but not IsZero; Copy(a) is the representative of a; BigArraysEqual holds exactly for arrays of the same length with the same integers, and IsZeroArray exactly for arrays of zeros.", "quantifier": "all integers a, b, all arrays of integers and all q>0", "why_tests_cant": "The input space (arbitrary-precision integers) is infinite; a test settles finitely many points of it.", "anchors": ["utils/finiteField.go:Affine", "utils/finiteField.go:Equal", "utils/finiteField.go:IsZero", "utils/finiteField.go:Copy", "utils/polynomialField.go:BigArraysEqual", "utils/polynomialField.go:IsZeroArray"]}
{"id": "C05", "title": "Dense polynomial evaluation", "statement": "EvalPoly(v,x) is congruent to sum v_i x^i for every non-empty coefficient list, is in [0,q) when there are at least two coefficients, and aborts on the empty list.", "quantifier": "all coefficient lists of any length, all points, all q>0", "why_tests_cant": "Length and coefficients are unbounded.", "anchors": ["utils/finiteField.go:EvalPoly"]}
{"id": "C06", "title": "Scalar product", "statement": "ScalarProduct(l,r) is the representative in [0,q) of sum l_i r_i when the lengths agree and aborts when they differ.", "quantifier": "all pairs of lists", "why_tests_cant": "Length and entries are unbounded.", "anchors": ["utils/finiteField.go:ScalarProduct"]}
{"id": "C07", "title": "Random field elements", "statement": "Rand always returns a value in [0,q) when it returns, but it draws only BitLen(q)/8-1 bytes, so for the 254-bit group order every value is below 2^240 and field elements from 2^240 up are never produced.", "quantifier": "all byte strings the randomness source can return", "why_tests_cant": "All outcomes of the randomness source must be considered; sampling cannot show that a value is never returned.", "anchors": ["utils/finiteField.go:Rand"]}
{"id": "C08", "title": "Dense polynomial ring operations", "statement": "Add, Sub, MulScalar and Mul on coefficient lists compute the coefficientwise sum, difference, scaling and convolution modulo q (missing coefficients are 0); hence evaluation commutes with them at every point. MulSimple, documented as polynomial multiplication, is the coefficientwise product instead.", "quantifier": "all coefficient lists (lengths may differ; Mul: not both empty), all points", "why_tests_cant": "Lengths and coefficients are unbounded.", "anchors": ["utils/polynomialField.go:Add", "utils/polynomialField.go:Sub", "utils/polynomialField.go:Mul", "utils/polynomialField.go:MulSimple", "utils/polynomialField.go:MulScalar"]}
{"id": "C09", "title": "Dense polynomial division", "statement": "If the last coefficient of b is invertible and len(a)>=len(b)-1, Div(a,b) returns quo, rem with a = b*quo + rem (as polynomials mod q), len(rem)<len(b) and len(quo)=len(a)-len(b)+1. With a zero last coefficient in b the identity fails (terms are silently dropped); with len(a)<len(b)-1 or empty b the call aborts.", "quantifier": "all dividends and divisors over every prime field", "why_tests_cant": "Unbounded lengths; the failing divisors are a measure-zero family a random test never draws.", "anchors": ["utils/polynomialField.go:Div"]}
{"id": "C10", "title": "Domain polynomial", "statement": "DomainPolynomial(n), n>=1, evaluates to prod_{i<n}(x-i) mod q at every x; over a prime field it vanishes exactly at the residues of 0..n-1; it has n+1 coefficients with leading coefficient 1.", "quantifier": "all n>=1, all x, all q", "why_tests_cant": "n and x are unbounded.", "anchors": ["utils/polynomialField.go:DomainPolynomial"]}
{"id": "C11", "title": "Lagrange interpolation goes through its points", "statement": "For a prime q and n<=q data points, LagrangeInterpolation(d) has n coefficients and evaluates to d_i mod q at i for every i<n.", "quantifier": "all n, all data vectors, all primes q>=n", "why_tests_cant": "n and the data are unbounded.", "anchors": ["utils/polynomialField.go:LagrangeInterpolation", "utils/polynomialField.go:MulScalar", "utils/polynomialField.go:AddPolynomials"]}
{"id": "C12", "title": "Interpolation caching is invisible", "statement": "The result of LagrangeInterpolation does not depend on earlier calls on the same field object: after any sequence of calls it equals the result on a fresh field.", "quantifier": "all histories of interpolation calls of any lengths", "why_tests_cant": "A property of all histories.", "anchors": ["utils/polynomialField.go:LagrangeInterpolation", "utils/finiteField.go:Fq.basesClassic"]}
{"id": "C13", "title": "Single-point polynomials", "statement": "NewPolZeroAt(k,n,h) evaluates to h at k and to 0 at every other point of 0..n-1 (prime q>n-1).", "quantifier": "all k<n<=q, all h", "why_tests_cant": "n unbounded.", "anchors": ["utils/polynomialField.go:NewPolZeroAt"]}
{"id": "C14", "title": "Transpose and linear combination", "statement": "Transpose of a rectangular non-empty matrix swaps the indices and is an involution; AddPolynomials(LinearCombine(ps,w)) evaluates to sum w_i p_i(x).", "quantifier": "all rectangular matrices, all polynomial lists and weights", "why_tests_cant": "Dimensions unbounded.", "anchors": ["utils/polynomialField.go:Transpose", "utils/polynomialField.go:LinearCombine", "utils/polynomialField.go:AddPolynomials"]}
{"id": "C15", "title": "AVL tree is a finite map", "statement": "After any sequence of Insert, Put-with-combine and Remove of present keys, Get(k) returns exactly the value an abstract map from keys to non-zero integers would hold (a result of zero deletes the key), regardless of the rotations performed, and the run aborts exactly when a combine callback panics. Remove of an absent key is not harmless: it can rebalance in place while the tree keeps its old root pointer, and entries are lost.", "quantifier": "all operation sequences of any length over all uint keys and integers", "why_tests_cant": "Tree shapes and histories are unbounded.", "anchors": ["utils/avl.go:Put", "utils/avl.go:Insert", "utils/avl.go:Get", "utils/avl.go:Remove", "utils/avl.go:balance", "utils/avl.go:rotate_left", "utils/avl.go:rotate_right", "utils/avl.go:pop_node", "utils/avl.go:push_node"]}
{"id": "C16", "title": "AVL rebalancing terminates", "statement": "The rebalancing loop run by every insertion terminates for every search tree, whatever non-negative heights are stored in it (the code lets them drift from the true heights), keeps all entries and ends with stored heights below the root differing by at most 2; every tree reachable through the API has non-negative stored heights.", "quantifier": "all search trees with arbitrary non-negative stored heights", "why_tests_cant": "Non-termination is not observable by a finite test; the set of trees is infinite.", "anchors": ["utils/avl.go:balance"]}
{"id": "C17", "title": "AVL traversal order", "statement": "ChannelNodes(true)/(false), DecendingNodes and Size enumerate exactly the entries of the map, in strictly ascending / descending key order and exactly once each. MaxNode and MaxPower give the largest key ((0,0) for the empty tree), MinNode the smallest (it panics on the empty tree).", "quantifier": "all trees reachable by any history", "why_tests_cant": "All shapes.", "anchors": ["utils/avl.go:ChannelNodes", "utils/avl.go:DecendingNodes", "utils/avl.go:Size", "utils/avl.go:MaxNode", "utils/avl.go:MaxPower", "utils/avl.go:MinNode"]}
{"id": "C18", "title": "No-overwrite insertion", "statement": "InsertNoOverwriteAllowed(k,v) aborts exactly when k already holds a (non-zero) value and otherwise behaves as Insert.", "quantifier": "all reachable trees, keys and values", "why_tests_cant": "All histories.", "anchors": ["utils/avl.go:InsertNoOverwriteAllowed", "utils/avl.go:setInsertNoOvreride"]}
{"id": "C19", "title": "Array conversion", "statement": "NewSparseArrayFromArray followed by ToArray(n) returns the array (zero-padded to n) when n exceeds the largest non-zero index; ToArray(MaxPower) with a non-empty tree aborts (index out of range) although its guard is meant to reject too-short lengths with a message.", "quantifier": "all arrays and lengths", "why_tests_cant": "Lengths unbounded, off-by-one boundary.", "anchors": ["utils/avl.go:NewSparseArrayFromArray", "utils/avl.go:ToArray", "utils/avl.go:MaxPower"]}
{"id": "C20", "title": "Sparse polynomial ring operations", "statement": "MulSparse, AddToSparse, SubToSparse, MulSparseScalar, AddPolynomials and LinearCombine on trees compute, key by key, the same polynomial as their mathematical definition modulo q.", "quantifier": "all trees, all scalars", "why_tests_cant": "Tree shapes and coefficients are unbounded.", "anchors": ["utils/sparsePolynomial.go:MulSparse", "utils/sparsePolynomial.go:AddToSparse", "utils/sparsePolynomial.go:SubToSparse", "utils/sparsePolynomial.go:MulSparseScalar", "utils/sparsePolynomial.go:AddPolynomials", "utils/sparsePolynomial.go:LinearCombine"]}
{"id": "C21", "title": "Sparse polynomial evaluation", "statement": "EvalSparsePoly(p,x) is congruent to sum p_k x^k and never divides by zero, for every x that is 0 or not divisible by prime q. For a non-zero multiple of q as x the power table loses its entry for x and the result is wrong.", "quantifier": "all trees, all points, all primes", "why_tests_cant": "The greedy power table depends on the whole key set.", "anchors": ["utils/sparsePolynomial.go:EvalSparsePoly", "utils/sparsePolynomial.go:euclid"]}
{"id": "C22", "title": "Sparse polynomial division", "statement": "For reduced trees a and b over a prime field with degree(b)>=1, DivideSparse terminates with a=b*quo+rem and rem empty or of smaller degree. For a constant divisor it aborts or never returns.", "quantifier": "all reduced trees a and b", "why_tests_cant": "Termination and the identity range over all polynomials.", "anchors": ["utils/sparsePolynomial.go:DivideSparse"]}
{"id": "C23", "title": "Sparse interpolation", "statement": "InterpolateSparseArray(d,n) with all keys of d below n (n<=q prime) returns the same polynomial as the dense LagrangeInterpolation of the zero-padded vector, independent of cache history, and aborts when a key is >=n.", "quantifier": "all sparse vectors, all n, all histories", "why_tests_cant": "Unbounded, history dependent.", "anchors": ["utils/sparsePolynomial.go:InterpolateSparseArray"]}
{"id": "C24", "title": "In-place scaling while iterating is schedule independent", "statement": "MulSparseScalar updates the tree while a second goroutine is still walking it; for every interleaving of the two, every entry is multiplied exactly once (also when the scalar is 0 and all nodes are being deleted), provided entries are non-zero mod prime q.", "quantifier": "all interleavings of walker and updater, all trees", "why_tests_cant": "The schedule is chosen by the runtime.", "anchors": ["utils/sparsePolynomial.go:MulSparseScalar", "utils/avl.go:ChannelNodes", "utils/avl.go:channelNodesAscending"]}
{"id": "C25", "title": "Combine is schedule dependent when a weight is zero", "statement": "Combine(a,w) multiplies each entry by its weight under every interleaving as long as no product is 0 mod q; if a product is 0 the concurrent deletion can re-attach already visited nodes in front of the walker, and for some interleavings an entry is multiplied twice.", "quantifier": "all interleavings", "why_tests_cant": "The wrong outcome needs a particular schedule.", "anchors": ["utils/sparsePolynomial.go:Combine", "utils/avl.go:Remove", "utils/avl.go:ChannelNodes"]}
{"id": "C26", "title": "Sparse scalar product", "statement": "SparseScalarProduct(a,w) is congruent to sum a_k w_k but, unlike ScalarProduct, is not reduced: it can be q or more.", "quantifier": "all trees and vectors", "why_tests_cant": "The input space (arbitrary-precision integers) is infinite; a test settles finitely many points of it.", "anchors": ["utils/sparsePolynomial.go:SparseScalarProduct"]}
{"id": "C27", "title": "Variable numbering of the constraint system", "statement": "With pairwise distinct public names (\"1\" first), the constraint system gives index 0 to the constant, indices 1.. to the public inputs in order, then the remaining inputs, then gate outputs; distinct names get distinct indices below the witness length. A public name declared twice breaks this: two different variables get the same index.", "quantifier": "all gate lists and input lists", "why_tests_cant": "All programs.", "anchors": ["circuitcompiler/Programm.go:GatesToR1CS", "circuitcompiler/Programm.go:GatesToSparseR1CS"]}
{"id": "C28", "title": "Rows mean the gate equation", "statement": "For every gate and every assignment, the row (l,r,e,o) emitted for it satisfies (l.w)(r.w)+X(g^(e.w)) = o.w mod q exactly when the assignment satisfies the gate's own equation (multiplication, addition, equality, base multiplication, bit and bit-sum gates), whichever side the compiler puts the longer operand.", "quantifier": "all gates, all assignments", "why_tests_cant": "All programs and assignments.", "anchors": ["circuitcompiler/Programm.go:GatesToR1CS", "circuitcompiler/Programm.go:GatesToSparseR1CS", "circuitcompiler/gate.go"]}
{"id": "C29", "title": "Dense and sparse constraint generation agree", "statement": "For the same gates, the sparse rows are the dense rows modulo q.", "quantifier": "all gate lists without repeated identifiers in one factor list", "why_tests_cant": "All programs.", "anchors": ["circuitcompiler/Programm.go:GatesToR1CS", "circuitcompiler/Programm.go:GatesToSparseR1CS"]}
{"id": "C30", "title": "Dense witness solver is sound", "statement": "When CalculateWitness returns without error, the returned vector satisfies every constraint (coefficients zero or invertible; bit variables first met with coefficient one).", "quantifier": "all constraint systems, inputs and outputs of the base-multiplication oracle", "why_tests_cant": "All systems and inputs.", "anchors": ["circuitcompiler/ER1CS.go:CalculateWitness"]}
{"id": "C31", "title": "Sparse witness solver is sound but rejects valid inputs", "statement": "When CalculateSparseWitness returns without error the vector satisfies every constraint. It compares an unreduced sum with a reduced value, so it rejects some inputs for which a satisfying assignment extending them exists and which the dense solver accepts.", "quantifier": "all systems and inputs", "why_tests_cant": "All systems and inputs.", "anchors": ["circuitcompiler/ER1CS.go:CalculateSparseWitness", "utils/sparsePolynomial.go:SparseScalarProduct"]}
{"id": "C32", "title": "Witness respects the inputs", "statement": "The witness holds 1 at index 0 and the supplied value at each supplied input's index, when all supplied names are known and distinct from the constant; an unknown name silently overwrites the constant-one entry. CombineInputs fails unless there are as many values as names, and pairs them in order.", "quantifier": "all systems and inputs", "why_tests_cant": "All systems and inputs.", "anchors": ["circuitcompiler/ER1CS.go:CalculateWitness", "circuitcompiler/ER1CS.go:CalculateSparseWitness", "circuitcompiler/Programm.go:CombineInputs"]}
{"id": "C33", "title": "Bit decomposition constraints", "statement": "SPLIT of a wire in a fresh program adds one bit gate per binary digit of the field order, then a sum gate (unless its identifier is the name of a bit). The constraints force every bit wire to 0 or 1 and the weighted sum to equal the split value mod q; every field element has a decomposition; the decomposition is not unique: values below 2^n - q (n the number of binary digits of q) have two.", "quantifier": "all assignments", "why_tests_cant": "All assignments.", "anchors": ["circuitcompiler/Programm.go:compile", "circuitcompiler/gate.go:zeroOrOneGate", "circuitcompiler/gate.go:sumCheckGate"]}
{"id": "C34", "title": "Factor sums, products, negation and inversion preserve value", "statement": "addFactors, mulFactors (one side a constant), negateFactors and invertFactors return factor lists whose value under every assignment is the sum, product, negation and (for a constant) inverse of the operands. scalarMultiplyFactors returns its argument with every value as before, so it does not multiply.", "quantifier": "all factor lists and assignments", "why_tests_cant": "All lists and assignments.", "anchors": ["circuitcompiler/factorHandling.go:addFactors", "circuitcompiler/factorHandling.go:mulFactors", "circuitcompiler/factorHandling.go:negateFactors", "circuitcompiler/factorHandling.go:invertFactors", "circuitcompiler/factorHandling.go:scalarMultiplyFactors"]}
{"id": "C35", "title": "Common-factor extraction", "statement": "extractConstant(l,r) returns c,l',r' with c*l'(w)*r'(w)=l(w)*r(w) for all assignments, when both sides have a non-zero coefficient; an all-zero side makes it abort (division by zero).", "quantifier": "all factor lists and assignments", "why_tests_cant": "All lists.", "anchors": ["circuitcompiler/factorHandling.go:extractConstant", "circuitcompiler/factorHandling.go:extractGCD", "circuitcompiler/factorHandling.go:factorSignature"]}
{"id": "C36", "title": "addGateConstraint scales wrongly", "statement": "addGateConstraint(l,r) returns c*(l'+r') with c the product of both common factors, which equals l+r when both common factors are 1 but not in general; the returned factor is the output wire of the new gate, which gets a place in the trace.", "quantifier": "all operand factor lists", "why_tests_cant": "All programs.", "anchors": ["circuitcompiler/Programm.go:compile"]}
{"id": "C37", "title": "Equality after multiplication of the same operands is dropped", "statement": "The gate identifier does not include the gate kind: for every hash function, equal(x,y) has the identifier of x*y, so if x*y was compiled before, the equality constraint is silently not added.", "quantifier": "all hash functions, all operand lists", "why_tests_cant": "Holds for every hash function.", "anchors": ["circuitcompiler/gate.go:setAndGetID", "circuitcompiler/Programm.go:gateCollector.Add", "circuitcompiler/Programm.go:equalityGate"]}
{"id": "C38", "title": "Gate identifiers are commutative", "statement": "Multiplication gates with swapped operands receive the same identifier, so a*b and b*a are compiled to one gate.", "quantifier": "all operands, all hash functions", "why_tests_cant": "All programs.", "anchors": ["circuitcompiler/gate.go:setAndGetID"]}
{"id": "C39", "title": "Lexing is lossless and terminates on the language's alphabet", "statement": "The lexer ends with tokens ts exactly when ts is the tokenisation of the text (longest token first, keywords, operators of one or two characters, comments, quoted strings, calls told from names by a following bracket). It ends exactly on the texts over the recognised alphabet with closed strings, never panics, and the token texts in order with blanks and quotes between them are the source. A blank at the very end gives an extra token without text. The parser receives these tokens without the comments, of line ends in a row only the first, and an EOF token at the end.", "quantifier": "all source texts", "why_tests_cant": "All texts.", "anchors": ["circuitcompiler/lexer.go"]}
{"id": "C40", "title": "Lexer diverges outside its alphabet", "statement": "On every other text (a character no rule recognises, a single & | or !, an unterminated string) the lexer runs for ever; on an unrecognised character it sends empty identifier tokens without end.", "quantifier": "all texts with such a suffix", "why_tests_cant": "Divergence is not observable by a finite test.", "anchors": ["circuitcompiler/lexer.go:IdentState", "circuitcompiler/lexer.go:readIdent"]}
{"id": "C41", "title": "Expressions are right associative without precedence", "statement": "For every expression built from numbers, names, brackets, calls with arguments, array elements and operators, parseExpression succeeds and its tree reads, in one way only, as the expression with all operators associating to the right at one precedence; so a*b+c means a*(b+c) and a-b-c means a-(b-c).", "quantifier": "all operand and operator sequences", "why_tests_cant": "All expressions.", "anchors": ["circuitcompiler/parser.go:parseExpression", "circuitcompiler/parser.go:splitAtFirstHighestTokenType"]}
{"id": "C42", "title": "Bracket and separator splitting", "statement": "For every token list: splitting at a text, at a comma outside brackets, at an operator outside brackets or at a closing bracket loses nothing but the separator, and splits at the first such place (for brackets: exactly where everything opened is closed). Unmatched brackets are not always refused: a b) is read as b. Of single tokens, stripOfBrackets panics exactly on a closing bracket.", "quantifier": "all token lists", "why_tests_cant": "All lists.", "anchors": ["circuitcompiler/parser.go:splitTokensAtFirstString", "circuitcompiler/parser.go:splitAtFirstHighestStringType", "circuitcompiler/parser.go:splitAtFirstHighestTokenType", "circuitcompiler/parser.go:splitAtClosingStringBrackets", "circuitcompiler/parser.go:stripOfBrackets"]}
{"id": "C43", "title": "Combined constraint polynomial", "statement": "For every assignment w, the polynomial P built from the interpolated constraint columns takes at gate index i the value (L_i.w)(R_i.w)+X(g^(E_i.w))-O_i.w; hence P is divisible by the domain polynomial exactly when w satisfies every gate.", "quantifier": "all constraint systems and assignments", "why_tests_cant": "All systems.", "anchors": ["zkSNARK/wol19.go:CombinePolynomials2"]}
{"id": "C44", "title": "No proof for a false witness", "statement": "GenerateProofs aborts for every assignment that violates some gate.", "quantifier": "all systems, assignments and setups", "why_tests_cant": "All assignments.", "anchors": ["zkSNARK/wol19.go:GenerateProofs"]}
{"id": "C45", "title": "Completeness of the dense prover", "statement": "For systems with at least two gates and no base-multiplication terms, for all non-zero gamma and delta, a proof generated from a satisfying assignment is accepted. With base-multiplication terms it is accepted exactly when the interpolated value at the secret point equals X of the combined exponent at that point.", "quantifier": "all systems, assignments and setup randomness; group modelled by exponents with a bilinear pairing", "why_tests_cant": "All systems and randomness.", "anchors": ["zkSNARK/wol19.go:Setup", "zkSNARK/wol19.go:GenerateProofs", "zkSNARK/wol19.go:VerifyProof"]}
{"id": "C46", "title": "Verifier accepts false statements", "statement": "The proof element PiF is not bound to the exponent columns: for a program without base multiplications stating that a public z is a square, a forged proof for a non-square z is accepted for every setup.", "quantifier": "all setups", "why_tests_cant": "Needs an adversarial prover.", "anchors": ["zkSNARK/wol19.go:VerifyProof"]}
{"id": "C47", "title": "Single-gate programs cannot be proved", "statement": "For a system with exactly one gate, GenerateProofs aborts (index out of range) for every satisfying assignment.", "quantifier": "all one-gate systems", "why_tests_cant": "Boundary case for all systems.", "anchors": ["zkSNARK/wol19.go:GenerateProofs"]}
{"id": "C48", "title": "Sparse setup uses another interpolation degree", "statement": "ER1CSToEAPSparse interpolates over the witness length, the prover over the number of gates; an honest sparse proof is rejected for some systems and setups where these differ, and setup aborts when there are more gates than variables.", "quantifier": "systems and setups", "why_tests_cant": "Honest proofs look well-formed.", "anchors": ["circuitcompiler/ER1CS.go:ER1CSToEAPSparse", "zkSNARK/wol19.go"]}
{"id": "C49", "title": "Public signals are checked in number", "statement": "VerifyProof rejects every proof if the number of public signals differs from the number of public inputs.", "quantifier": "all proofs and signals", "why_tests_cant": "All inputs.", "anchors": ["zkSNARK/wol19.go:VerifyProof"]}
{"id": "C50", "title": "Extension field arithmetic", "statement": "gfP2, gfP6 and gfP12 Add, Sub, Neg, Mul, Square, MulXi/MulTau and Exp compute the ring operations of Fp[i]/(i^2+1), Fp2[t]/(t^3-xi), Fp6[w]/(w^2-t), and Invert the inverse where the norm is non-zero.", "quantifier": "all field elements (any integer representatives)", "why_tests_cant": "The input space (arbitrary-precision integers) is infinite; a test settles finitely many points of it.", "anchors": ["pairing/gfp2.go", "pairing/gfp6.go", "pairing/gfp12.go"]}
{"id": "C51", "title": "Curve points stay on the curve and follow the chord-tangent law", "statement": "Add, Double, Negative and MakeAffine of curvePoint and twistPoint (separate result) give the chord-tangent sum, the tangent double, the opposite and affine coordinates of the points their arguments stand for, including infinity, opposite and equal points; IsInfinity tells infinity; the chord-tangent law makes the points of both curves a commutative group.", "quantifier": "all points of both curves in all Jacobian representations", "why_tests_cant": "The input space (arbitrary-precision integers) is infinite; a test settles finitely many points of it.", "anchors": ["pairing/curve.go:Add", "pairing/curve.go:Double", "pairing/twist.go:Add", "pairing/twist.go:Double", "pairing/curve.go:MakeAffine"]}
{"id": "C52", "title": "In-place doubling is wrong", "statement": "Add(a, b) with the result stored in a is correct for both curves unless a and b are the same finite point; then y is read after it was overwritten, and with (x', y') the double of (x, y), x' not 0, the result stands for the double exactly if 8 y' y^2 z^9 = 1, z being the third coordinate of a. It is not the double for the generators of G1 and G2.", "quantifier": "all curve points", "why_tests_cant": "Needs coinciding points.", "anchors": ["pairing/curve.go:Double", "pairing/twist.go:Double", "pairing/bn256.go:G1.Add", "pairing/bn256.go:G2.Add"]}
{"id": "C53", "title": "G1 serialisation", "statement": "Marshal of a G1 point is 64 bytes, the canonical encoding of its affine coordinates (zeros for infinity); Unmarshal accepts exactly the canonical encodings of points on the curve or infinity and returns the point encoded; so Unmarshal(Marshal(p)) is p. X returns the reduced affine x.", "quantifier": "all points, all byte strings", "why_tests_cant": "All byte strings.", "anchors": ["pairing/bn256.go:G1.Marshal", "pairing/bn256.go:G1.Unmarshal"]}
{"id": "C54", "title": "GT serialisation is not injective", "statement": "GT.Marshal is injective on field elements and GT.Unmarshal inverts it; but Unmarshal accepts coordinates that are not reduced, so different byte strings decode to equal elements, and it accepts elements outside GT such as 0.", "quantifier": "all byte strings", "why_tests_cant": "All byte strings.", "anchors": ["pairing/bn256.go:GT.Unmarshal"]}
{"id": "C55", "title": "Curve constants", "statement": "P and Order are prime and given by the BN polynomials at u; the loop digits encode 6u+2 (they are not in non-adjacent form, contrary to the comment); the Frobenius constants are the stated powers of xi; twistB is 3/xi; the generators are on their curves and their order is exactly Order.", "quantifier": "the fixed constants (primality quantifies over all divisors)", "why_tests_cant": "Primality of 254-bit numbers is a statement about all divisors.", "anchors": ["pairing/constants.go", "pairing/optate.go"]}
{"id": "C56", "title": "Arithmetic programs compile to equivalent constraints", "statement": "For a main made of equal(...) calls and a return over +,-,*,/ literals, inputs and scalarBaseMultiply, if no two different gates of the program share an identifier: every assignment satisfying the compiled gates makes both sides of each equality equal and gives the returned expression's value to the result (divisors non-zero), and every choice of inputs that satisfies the equalities with non-zero divisors extends to an assignment satisfying all gates.", "quantifier": "all expressions, all assignments, all hash and sort functions", "why_tests_cant": "Ranges over all expression trees and all field assignments; soundness is about absence of bad assignments.", "anchors": ["circuitcompiler/Programm.go:compile", "circuitcompiler/Programm.go:Execute", "circuitcompiler/factorHandling.go"]}
{"id": "C57", "title": "Division by a constant zero", "statement": "Dividing any expression by a divisor that folds to the constant 0 compiles without error to the constant 0, so the constraints accept a quotient that does not exist.", "quantifier": "all dividends, hash functions, collectors", "why_tests_cant": "Ranges over all dividends and assignments.", "anchors": ["circuitcompiler/Programm.go:compile", "circuitcompiler/factorHandling.go:invertFactors"]}
{"id": "C58", "title": "Constraint system of a program is equivalent to the program", "statement": "For an arithmetic program over declared inputs whose gate identifiers do not collide, constraint generation (dense and sparse) succeeds with one row per gate; every satisfying witness with W[0]=1 is a run of the program (its equalities hold and one wire carries its result), and all inputs satisfying the equalities with no zero divisor extend to a satisfying witness that keeps the inputs; dense and sparse systems have the same solutions unless a number literal is written like a wire name.", "quantifier": "all arithmetic programs, all prime field orders, all witnesses and inputs", "why_tests_cant": "Universally quantified over programs and witnesses.", "anchors": ["circuitcompiler/Programm.go:Execute", "circuitcompiler/Programm.go:GatesToR1CS", "circuitcompiler/Programm.go:GatesToSparseR1CS", "circuitcompiler/factorHandling.go"]}
{"id": "C59", "title": "The dense solver accepts exactly the inputs that satisfy the program", "statement": "For a program of plain arithmetic (equal(...) statements and a returned expression over +,-,*,/ and scalarBaseMultiply) compiled without hash collision, with every declared input supplied once and no divisor equal to zero: if any assignment satisfies all rows and agrees with the inputs, CalculateWitness returns one, equal to it modulo q on every wire; CalculateWitness succeeds if and only if every equal(...) holds for the inputs; and the trace it returns satisfies all rows, keeps the supplied inputs and carries the value of the returned expression. CalculateSparseWitness does not have this property: it rejects some inputs that satisfy the program.", "quantifier": "all arithmetic programs, all prime moduli, all sorting and hash functions (without a collision on the program), all inputs", "why_tests_cant": "The set of programs, of inputs and of hash functions is unbounded; the order in which gates become solvable depends on the whole compilation, and a single unsolvable order or rejected honest input would break it.", "anchors": ["circuitcompiler/Programm.go:Execute", "circuitcompiler/Programm.go:GatesToR1CS", "circuitcompiler/ER1CS.go:CalculateWitness", "circuitcompiler/ER1CS.go:CalculateSparseWitness"]}
{"id": "C60", "title": "Sums accumulated in place", "statement": "acc.Add(acc, term) in a loop, as the prover does for every proof element, gives the sum of the terms as long as no finite partial sum equals the next term; if one does (two equal first terms), the result is not the sum.", "quantifier": "all lists of points of G1 and of G2", "why_tests_cant": "Failure needs a partial sum coinciding with the next term, which random witnesses do not produce.", "anchors": ["zkSNARK/wol19.go:GenerateProofs", "pairing/bn256.go:G1.Add", "pairing/bn256.go:G2.Add"]}
{"id": "C62", "title": "Frobenius maps are powers", "statement": "gfP2.Conjugate, gfP6.Frobenius and gfP12.Frobenius raise to the power p, gfP12.FrobeniusP2 to the power p^2 and gfP12.Conjugate to the power p^6; every element of the tower equals its p^12-th power.", "quantifier": "all field elements (any integer representatives)", "why_tests_cant": "The field has p^12 elements.", "anchors": ["pairing/gfp2.go:Conjugate", "pairing/gfp6.go:Frobenius", "pairing/gfp12.go:Frobenius", "pairing/gfp12.go:FrobeniusP2", "pairing/gfp12.go:Conjugate"]}
{"id": "C63", "title": "The final exponentiation is the power (p^12-1)/Order", "statement": "finalExponentiation(f) = f^((p^12-1)/Order) for every f and every state of the scratch pool; so its values at non-zero f are Order-th roots of unity and it is multiplicative.", "quantifier": "all elements of gfP12, all pool states", "why_tests_cant": "The addition chain agrees with the exponent only by an identity of 3000-bit integers and Frobenius relations; a test settles finitely many elements.", "anchors": ["pairing/optate.go:finalExponentiation"]}
{"id": "C64", "title": "G2 serialisation", "statement": "Marshal of a G2 point is 128 bytes, the canonical encoding of its affine coordinates (zeros for infinity); Unmarshal accepts exactly the canonical encodings of points of the twist whose multiple by Order is infinity, and returns the point encoded.", "quantifier": "all points, all byte strings, all contents of scratch objects", "why_tests_cant": "All byte strings; points of the twist outside the subgroup are not found at random.", "anchors": ["pairing/bn256.go:G2.Marshal", "pairing/bn256.go:G2.Unmarshal", "pairing/twist.go:IsOnCurve"]}
{"id": "C65", "title": "Scalar multiplication", "statement": "ScalarMult by k >= 0 is the k-fold sum; ScalarBaseMult gives equal points exactly for factors congruent modulo Order; Add and ScalarMult of multiples of the generator add and multiply the factors. A negative factor is misread: -1 times G is 3G.", "quantifier": "all points, all factors", "why_tests_cant": "Infinitely many factors; congruence modulo a 254-bit number.", "anchors": ["pairing/curve.go:Mul", "pairing/twist.go:Mul", "pairing/bn256.go:ScalarBaseMult", "pairing/bn256.go:ScalarMult"]}
{"id": "C66", "title": "G1 and G2 have Order points", "statement": "Every point of y^2 = x^3 + 3 over the integers modulo P is k times the generator for exactly one k in 0..Order-1 (constants.go: Order is the number of elements of G1, G2 and GT), and so is every point of the twist whose multiple by Order is infinity; the byte strings G1.Unmarshal and G2.Unmarshal accept are exactly the encodings of these multiples.", "quantifier": "all points of both curves, all byte strings", "why_tests_cant": "A count of 2^254 points.", "anchors": ["pairing/constants.go:Order", "pairing/bn256.go:G1.Unmarshal"]}
{"id": "C67", "title": "Pair is bilinear and not degenerate", "statement": "There is an element e of GT of order exactly Order such that Pair of n times the generator of G1 and m times the generator of G2 is e^(n m), in whatever coordinates the points are given and whatever scratch integers hold. So Pair turns Add in either argument into GT.Add, ScalarMult in either argument into GT.ScalarMult, is one exactly if an argument is infinity, and separates first arguments. For points returned by Unmarshal this holds without further hypotheses.", "quantifier": "all points of G1 and G2, all representations with t = 1 when z = 1, all factors >= 0, all contents of scratch objects", "why_tests_cant": "Identity between 254-bit degrees of freedom; non-degeneracy on all points is not testable.", "anchors": ["pairing/bn256.go:Pair", "pairing/optate.go:miller", "pairing/optate.go:optimalAte"]}
{"id": "C68", "title": "PairingCheck", "statement": "PairingCheck of points n_i G1 and m_i G2 returns true exactly if the sum of the n_i m_i is zero modulo Order; it panics if the second list is shorter and ignores the surplus of a longer one.", "quantifier": "all lists of points", "why_tests_cant": "Lists of any length, all points.", "anchors": ["pairing/bn256.go:PairingCheck"]}
{"id": "C69", "title": "The group GT", "statement": "On values of Pair, GT.Add is commutative and associative with OneGT as neutral element and Neg as inverse, and ScalarMult by k >= 0 is the k-fold sum, equal for two factors exactly if they are congruent modulo Order. ZeroGT is not neutral (adding it yields it), and ScalarMult by -1 is the identity, not Neg.", "quantifier": "all values of the pairing, all factors", "why_tests_cant": "All group elements; congruence modulo a 254-bit number.", "anchors": ["pairing/bn256.go:GT.Add", "pairing/bn256.go:GT.Neg", "pairing/bn256.go:GT.ScalarMult", "pairing/bn256.go:ZeroGT", "pairing/bn256.go:OneGT"]}
{"id": "C70", "title": "Honest proofs with the real groups", "statement": "With G1, G2, GT and Pair of package bn256, setup, CombinePolynomials2, GenerateProofs and VerifyProof succeed on any satisfying assignment of a system with at least two gates, and without base multiplications the verdict is true; with them it is true exactly if X of the combined exponent at the secret point equals the interpolated value there. Excluded are sums which add a point in place to an equal one (C52) and coordinates with z = 1 and a stale t (C67).", "quantifier": "all systems, assignments >= 0, setup randomness with gamma, delta not divisible by Order, contents of scratch objects", "why_tests_cant": "All systems and all randomness, for every representation of points.", "anchors": ["zkSNARK/wol19.go:Setup", "zkSNARK/wol19.go:CombinePolynomials2", "zkSNARK/wol19.go:GenerateProofs", "zkSNARK/wol19.go:VerifyProof", "pairing/bn256.go:Pair"]}
{"id": "C71", "title": "Forged proofs with the real groups", "statement": "With the groups of package bn256, whoever knows the proving key and values w, f with (l - f) r + X(g^f) = o in every row of a system without base multiplications obtains a proof that VerifyProof accepts for the public part of w, whether or not a satisfying assignment exists. So proofs are accepted that 7 is a square and that 5 is a cube modulo Order; 5 is none.", "quantifier": "all systems, values and setup randomness as in C70", "why_tests_cant": "Needs an adversarial prover.", "anchors": ["zkSNARK/wol19.go:VerifyProof"]}
{"id": "C72", "title": "What VerifyProof decides", "statement": "For any proof with PiA = a G1, PiB = b G2, PiC = c G1, PiF = f G1 and any public signals s, VerifyProof with a key from setup with secrets x, alpha, beta, gamma, delta returns true exactly if a(b + beta) + X(f G1) is congruent modulo Order to alpha beta + alpha R + beta (L + E) + O + c delta + f b, where L, R, E, O are the sums of the public columns' polynomials at x weighted with s. It does not panic, and the verdict does not depend on the representation of the points.", "quantifier": "all proofs made of group elements, all signals >= 0 of the right number, all setups", "why_tests_cant": "All quadruples of group elements.", "anchors": ["zkSNARK/wol19.go:VerifyProof"]}
{"id": "C73", "title": "Proofs are malleable", "statement": "From any proof, the key alone and any r >= 0 anyone computes the proof (PiA, PiB + r delta2, PiC + r (PiA - PiF), PiF), on which VerifyProof gives the same verdict for the same signals; its PiB has the exponent of the old one plus r delta.", "quantifier": "all keys from setup, proofs made of group elements, signals and r >= 0", "why_tests_cant": "Needs an adversary; all proofs and factors.", "anchors": ["zkSNARK/wol19.go:VerifyProof"]}
{"id": "C74", "title": "Compiled programs enforce their meaning", "statement": "If Parse and Execute compile a program, then every assignment of field elements to wires that satisfies all emitted gates gives the returned linear combination the value the program computes from its inputs, and makes the two sides of every executed equal congruent. The meaning is a big-step semantics of source programs with lexical scoping, stated without the compiler's function objects, maps, copies or gates. Programs in the fragment: functions with parameters, var, assignment, equal, calls, return, for and if with conditions over constants, public, arithmetic, scalarBaseMultiply, arrays declared with a list of values and indexed by constant expressions (an index is a number below 2^63, for fields of at least that size); every name declared before use, the elements of an array in scope where it is used and starting with a letter, no return in a loop, no if in an if, no else. Stored factor lists must not mix a number with a wire whose name is the number's decimal text.", "quantifier": "all programs of the fragment, all wire assignments, all prime fields, every hash function without collisions on the submitted gates, every sorting function", "why_tests_cant": "All programs (calls, recursion, loops of any length) and all, also dishonest, wire assignments.", "anchors": ["circuitcompiler/circuit.go:preCompile", "circuitcompiler/Programm.go:compile", "circuitcompiler/Programm.go:Execute"]}
{"id": "C75", "title": "Compiled programs can be satisfied", "statement": "If Parse and Execute compile a program and the equalities it asks for hold for the given inputs, then there is an assignment that agrees with the inputs and satisfies all emitted gates, and under it the returned linear combination is the value the program computes. Same fragment and semantics as C74.", "quantifier": "all programs of the fragment, all inputs, all prime fields, every hash function without collisions on the submitted gates, every sorting function", "why_tests_cant": "All programs and inputs.", "anchors": ["circuitcompiler/circuit.go:preCompile", "circuitcompiler/Programm.go:compile", "circuitcompiler/Programm.go:Execute"]}
{"id": "C76", "title": "If and else", "statement": "One might expect that of if/else exactly one branch is executed and that ifs nest. Both fail: with a true condition the else branch is executed as well (after the first), so its assignments win; an if inside an if makes preCompile panic.", "quantifier": "two programs as witnesses; the returned value for all satisfying assignments", "why_tests_cant": "The value is wrong for all assignments that satisfy the gates; the project's tests use no else after a taken if.", "anchors": ["circuitcompiler/circuit.go:preCompile", "circuitcompiler/Programm.go:compile"]}
{"id": "C77", "title": "Return inside a loop", "statement": "One might expect a return inside a for loop to end the function. It fails: the loop body is called as a function, its result is dropped and the loop and the function go on.", "quantifier": "a program as witness; the returned value for all satisfying assignments", "why_tests_cant": "As C76.", "anchors": ["circuitcompiler/Programm.go:compile"]}
{"id": "C78", "title": "Counting down", "statement": "One might expect a loop `for(i>=0; i=i-1)` to end. It never does, however long it runs: values are reduced modulo q before they are compared, so none is negative.", "quantifier": "a program as witness; all numbers of steps, all hash and sorting functions", "why_tests_cant": "Non-termination for every number of steps.", "anchors": ["circuitcompiler/circuit.go:checkStaticCondition"]}
{"id": "C79", "title": "Constraints inside conditions", "statement": "One might expect a function called in a condition to enforce its equal constraints. They are lost: conditions (and array indices) are evaluated with a throw-away gate container.", "quantifier": "a program and an assignment violating the constraint as witnesses", "why_tests_cant": "Needs an assignment no honest prover computes.", "anchors": ["circuitcompiler/circuit.go:checkStaticCondition"]}
{"id": "C80", "title": "Variables keep their values", "statement": "One might expect that only assignments change variables, and that a name means the variable declared before. Both fail: `x - a` with a number in `a` negates that number in place; an assignment to b before `var b` in an if block already means the inner variable.", "quantifier": "two programs as witnesses", "why_tests_cant": "The value is wrong for all satisfying assignments.", "anchors": ["circuitcompiler/factorHandling.go:negateFactors", "circuitcompiler/circuit.go:preCompile"]}
{"id": "C81", "title": "From program text to witness", "statement": "For a program of C74's fragment that compiles, the public signals are 1 and the names declared public, in the order of the text. GatesToR1CS (dense and sparse) succeeds with one row per gate. Every vector that satisfies the dense system and starts with 1 is a run of the program on the inputs it holds: the equalities asked for hold, and the program's result stands at some index of the vector unless it is a number known when compiling. Conversely, inputs for which the program has a meaning and its equalities hold extend to a satisfying vector. CalculateWitness on such inputs succeeds exactly if the equalities hold; what it returns satisfies the system, keeps the inputs and carries the result.", "quantifier": "all programs of the fragment whose public names are distinct, all inputs and vectors, all prime fields, every hash function without collisions on the submitted gates, every sorting function; division only by non-zero values", "why_tests_cant": "All programs, all inputs, and all, also dishonest, vectors.", "anchors": ["circuitcompiler/Programm.go:Execute", "circuitcompiler/Programm.go:GatesToR1CS", "circuitcompiler/ER1CS.go:CalculateWitness"]}
{"id": "C82", "title": "From program to accepted proof", "statement": "Compile a program of C74's fragment that does not call scalarBaseMultiply and generates at least two gates; generate its dense system, solve it for non-negative inputs that meet the program's equalities, generate keys, combine the polynomials and generate a proof: every step succeeds and VerifyProof accepts with the signals 1 followed by the values of the public names. The sums formed in place must not add a point to itself (C52), and with the bn256 groups the exceptional points of C70 are excluded. Conversely, whenever GenerateProofs makes a proof from a vector that starts with 1 (also one not made by the solver, also with scalarBaseMultiply), the vector is a run of the program: the equalities hold and the result stands in the vector.", "quantifier": "all programs of the fragment, inputs, vectors, setup secrets with gamma and delta not zero, caches, lawful groups over any prime field; also the modelled bn256 groups", "why_tests_cant": "All programs, secrets and vectors; a test runs a few circuits.", "anchors": ["circuitcompiler/Programm.go:Execute", "circuitcompiler/ER1CS.go:CalculateWitness", "zkSNARK/wol19.go:GenerateProofs", "zkSNARK/wol19.go:VerifyProof"]}
{"id": "C83", "title": "Program text is read as the program it is", "statement": "For a source text that is a program of the grammar (functions; declarations, assignments, equal, calls, return, for, if, public, arrays and their elements, arrays with sizes as parameters; right-associative expressions; comments and blank lines anywhere) lexer and parser deliver the constraints of exactly that program, and the text is no other program. Hence the gates Execute generates from the text force, and can be satisfied by, the program's meaning (C74, C75 from the text on). A block may not end with an if, and assignments with an operation (x += e) are not read: then the parser panics. A var line that is neither x = ... nor x[] = {... is not refused: nothing more is read and Parse waits for ever.", "quantifier": "all texts and programs of the grammar, all inputs, prime fields, hash functions", "why_tests_cant": "All texts and layouts; a test parses a few files.", "anchors": ["circuitcompiler/parser.go:Parse", "circuitcompiler/parser.go:statementMode", "circuitcompiler/parser.go:stackAllTokens", "circuitcompiler/lexer.go:NextToken", "circuitcompiler/Programm.go:Execute"]}
{"id": "C84", "title": "Every program can be written and is read back", "statement": "Write a program of the fragment without arrays as text, one statement per line, a blank after each token but punctuation and called names: lexer and parser read the same program back, so different programs have different texts. Asked of the program: numerals of digits, names that are not keywords, return only at the end of a block, if not at the end.", "quantifier": "all programs of the fragment", "why_tests_cant": "Infinitely many programs of any nesting.", "anchors": ["circuitcompiler/parser.go:Parse", "circuitcompiler/parser.go:statementMode", "circuitcompiler/lexer.go:NextToken"]}
{"id": "C85", "title": "Well-formed programs are accepted", "statement": "A program of the fragment whose functions are well formed (names declared before use and only once in scope, elements of arrays used where all of them are in scope, calls of existing functions with the right number of arguments, conditions as the compiler reads them) is accepted by Parse exactly when every public{} stands in the body of main itself. It is then accepted for good: from some recursion depth on nothing runs out, the public signals are 1 and those declared, in order, and there is a main exactly if the program has one. The same from the text on.", "quantifier": "all well-formed programs and texts, all fields and hash functions", "why_tests_cant": "Acceptance of all programs of any nesting and order of functions, and that the compiler ends on each.", "anchors": ["circuitcompiler/parser.go:Parse", "circuitcompiler/circuit.go:preCompile", "circuitcompiler/circuit.go:contextCheck", "circuitcompiler/Programm.go:Execute"]}
{"id": "C86", "title": "Compiling is evaluation over factor lists", "statement": "Execute does what an interpreter with lexical scoping does that computes with factor lists: if it finishes and no stored factor list names a wire twice, the gates and the result are those of such an evaluation of main; and if there is an evaluation in which no factor list names a wire twice, Execute finishes with its gates and its result, or meets a case in which the Go code shares a factor between variables (result Alias of the model). The operations are defined as follows: sums and differences always, a product unless neither operand is a single number and one has only zero factors, a quotient by a single number unless the divisor is a nonzero multiple of the modulus, any other quotient if the dividend has a nonzero factor and the divisor one that is not a multiple of the modulus (for identifiers of at least 16 digits). So a program with a perfectly good meaning in the field panics when a loop multiplies by a counter that starts at 0.", "quantifier": "all well-formed programs and texts, fields, hash functions; all loops and calls that end", "why_tests_cant": "Termination and result for all programs, with any number of rounds of nested loops and calls.", "anchors": ["circuitcompiler/Programm.go:Execute", "circuitcompiler/Programm.go:compile", "circuitcompiler/Programm.go:execute", "circuitcompiler/factorHandling.go:extractGCD"]}
{"id": "C87", "title": "Elements of arrays are separate variables", "statement": "In a program with arrays, an assignment to a[i][j].. changes the element whose indices are the values of i, j, .. and no other element of a, no element of another array and no other variable: elements of different arrays or with different indices have different names, and none has the name of a variable. Declaring an array declares its elements, numbered from 0, each with the value of its expression. This holds for the evaluation over factor lists that Execute performs (C86) and for the meaning over the field (C74).", "quantifier": "all programs, arrays, index values, values of variables; any domain of values", "why_tests_cant": "A clash of two element names would need particular names and indices; all of them are covered.", "anchors": ["circuitcompiler/Programm.go:resolveArrayName", "circuitcompiler/circuit.go:preCompile", "circuitcompiler/parser.go:ArrayStringBuild"]}
{"id": "C88", "title": "Programs in several files", "statement": "import \"name\" puts the functions of the named file where the import stands: a text together with the files it imports, directly or through other files, is read as the program made of all their functions in that order, whatever comments and blank lines the files have. Such programs are compiled, and their gates force and can be satisfied by the program's meaning, as for a single text (C83, C85). A program in one text is compiled in the same way whatever files there are. Files that begin by importing each other are read without end.", "quantifier": "all texts, files and import structures, all programs of the grammar, inputs, prime fields, hash functions", "why_tests_cant": "All ways to distribute a program over files, nested imports included; the repository has no test that imports a file.", "anchors": ["circuitcompiler/parser.go:statementMode", "circuitcompiler/parser.go:stackAllTokens", "circuitcompiler/parser.go:Parse"]}
{"id": "C89", "title": "Numbers are read as decimal numerals", "statement": "StringToFieldElement(s) returns exactly when s is a decimal numeral (one or more digits, optionally after one sign), and then the value in [0,q) of the number it denotes together with true; every other text, the empty one included, makes it panic, so the boolean result is never false.", "quantifier": "all texts and all q>0", "why_tests_cant": "All texts of any length; a test tries finitely many.", "anchors": ["utils/finiteField.go:StringToFieldElement"]}
{"id": "C90", "title": "The sparse combined polynomial and sparse proofs of violated systems", "statement": "For a sparse system CombineSparsePolynomials returns a tree whose value at gate number i is L_i(w)*R_i(w)+x(g^(E_i(w)))-O_i(w), with keys below 2n-1; when the rows of a dense system have the same coefficients modulo q, it has the same coefficients as CombinePolynomials2 on that system; and for an assignment that violates a gate GenerateProof_Sparse panics and returns no proof.", "quantifier": "all primes q, all sparse systems with 1 <= n <= q gates, all assignments, all caches and all setups", "why_tests_cant": "All systems, assignments and setups.", "anchors": ["zkSNARK/wol19.go:CombineSparsePolynomials", "zkSNARK/wol19.go:GenerateProof_Sparse", "circuitcompiler/ER1CS.go"]}
{"id": "C91", "title": "When sparse proofs are accepted", "statement": "For a satisfied sparse system with n gates and m>=n variables, GenerateTrustedSetupSparse, CombineSparsePolynomials and GenerateProof_Sparse succeed and VerifyProof accepts exactly when, at the secret point, the polynomials through the row values padded with zeros to m points satisfy the equation that those through the n row values satisfy. So without base multiplications and with n=m the honest proof is accepted; and if the combined polynomial is not zero at one of the points n..m-1, the honest proof is accepted for at most 2m-2 of the q secret points.", "quantifier": "all primes q, all groups of order q, all sparse systems, satisfying assignments, setups and caches, as long as no sum adds an element in place to itself", "why_tests_cant": "All systems, assignments and secret points; the set of secret points is too large to try.", "anchors": ["zkSNARK/wol19.go:GenerateTrustedSetupSparse", "zkSNARK/wol19.go:CombineSparsePolynomials", "zkSNARK/wol19.go:GenerateProof_Sparse", "zkSNARK/wol19.go:VerifyProof", "circuitcompiler/ER1CS.go:ER1CSToEAPSparse"]}
{"id": "C92", "title": "Sparse proofs with the real groups", "statement": "With G1, G2, GT and Pair of package bn256, sparse setup, CombineSparsePolynomials, GenerateProof_Sparse and VerifyProof succeed on any satisfying assignment of a sparse system with n gates and m>=n variables, and the verdict is the one of C91: without base multiplications it is true if n=m; if the combined polynomial is not zero at one of the points n..m-1, it is true for at most 2m-2 of the secret points. Excluded are sums which add a point in place to an equal one (C52) and coordinates with z = 1 and a stale t (C67).", "quantifier": "all sparse systems, satisfying assignments >= 0, setup randomness with gamma, delta not divisible by Order, caches, contents of scratch objects", "why_tests_cant": "All systems and all randomness, for every representation of points.", "anchors": ["zkSNARK/wol19.go:GenerateTrustedSetupSparse", "zkSNARK/wol19.go:CombineSparsePolynomials", "zkSNARK/wol19.go:GenerateProof_Sparse", "zkSNARK/wol19.go:VerifyProof", "pairing/bn256.go:Pair"]}
{"id": "C93", "title": "From a program to a sparse proof", "statement": "The sparse constraint system of a compiled program has the variables of the dense one, one row per gate and the same solutions. What CalculateSparseWitness returns for supplied inputs satisfies it and is a run of the program. Whenever GenerateProof_Sparse returns a proof for a vector starting with 1, that vector is a run of the program: every equal() holds and the returned value is one of its entries. For every run CalculateWitness finds the vector, sparse setup, combined polynomial and proof succeed (n gates, m>=n variables), and VerifyProof on 1 and the public values gives exactly the verdict of C91; it is true if n=m and the program has no base multiplication, also with the groups of package bn256.", "quantifier": "all programs of the fragment of C74 whose numbers are not written like a variable, all inputs, witnesses, setup randomness with gamma, delta not 0 in the field, all lawful groups (and package bn256 in C93_bn256)", "why_tests_cant": "All programs, inputs and randomness; tests run a few example programs.", "anchors": ["circuitcompiler/Programm.go:Execute", "circuitcompiler/Programm.go:GatesToSparseR1CS", "circuitcompiler/ER1CS.go:CalculateSparseWitness", "zkSNARK/wol19.go:GenerateTrustedSetupSparse", "zkSNARK/wol19.go:CombineSparsePolynomials", "zkSNARK/wol19.go:GenerateProof_Sparse", "zkSNARK/wol19.go:VerifyProof"]}
{"id": "C94", "title": "What the randomization row changes", "statement": "If GatesToR1CS (GatesToSparseR1CS) succeeds without randomization, it succeeds with it: the variables are the same followed by the input and the output of the randomizer (1@randomIn, 1@randomOut), the split map is the same, there is one more row, and W followed by t, u satisfies the system iff W satisfies the other one and t*t + X(g^t) = u. CalculateWitness (CalculateSparseWitness) returns the vector it returns without randomization followed by the value drawn and that u, or fails if it fails there. If no other row has an exponent part, an honest proof is accepted exactly if X(g^(tL)) = X(g^t)*L in the field, L being the value at the secret point of the polynomial that is 1 at the last gate and 0 at the others; so randomization makes honest proofs fail (refuted: an honest randomized proof verifies).", "quantifier": "all gate lists of the compiler's shape that do not use the two names, all witnesses, values drawn, inputs, setup randomness, all lawful groups and package bn256; sparse verdict for as many rows as variables", "why_tests_cant": "All systems, values drawn and secret points; the test of the sparse proof with randomization draws one.", "anchors": ["circuitcompiler/Programm.go:GatesToR1CS", "circuitcompiler/Programm.go:GatesToSparseR1CS", "circuitcompiler/ER1CS.go:CalculateWitness", "circuitcompiler/ER1CS.go:CalculateSparseWitness", "zkSNARK/wol19.go:GenerateProof", "zkSNARK/wol19.go:GenerateProof_Sparse", "zkSNARK/wol19.go:VerifyProof"]}
{"id": "C95", "title": "When the sparse solver returns what the dense one returns", "statement": "For a dense and a sparse system with the same entries up to reduction, CalculateSparseWitness returns W iff CalculateWitness returns W, W satisfies every constraint, and on no row do the reduced terms of the output side add up to q or more. If every output side has one entry (and bits first occur with coefficient 1) the two return the same. The two systems GatesToR1CS and GatesToSparseR1CS make of one gate list are such a pair. For a compiled program and supplied inputs the constraint part drops out: the sparse solver returns the dense solver's vector if the output sides fit and none otherwise, so on the inputs of a run it succeeds iff every equal() holds and the output sides fit. That it succeeds for every honest run is refuted (equal of two sums that pass the modulus).", "quantifier": "all primes q, systems, inputs, values drawn; generated systems: all gate lists of the compiler's shape, numbers not written like a variable, no non-zero coefficient divisible by q; programs of the fragment of C74", "why_tests_cant": "All systems and inputs: with inputs far below the modulus the sums never reach it, and the tests only use such inputs.", "anchors": ["circuitcompiler/ER1CS.go:CalculateSparseWitness", "circuitcompiler/ER1CS.go:CalculateWitness", "circuitcompiler/Programm.go:GatesToR1CS", "circuitcompiler/Programm.go:GatesToSparseR1CS", "utils/sparsePolynomial.go:SparseScalarProduct"]}
{"id": "C96", "title": "SPLIT and the solver", "statement": "On a system whose gates stand in solving order (each finds the wires it needs among the inputs and earlier gates; SPLIT may occur anywhere), with inputs in [0,q), CalculateWitness returns exactly the solution in which every wire is reduced and the bits of every split wire are the binary digits of its value. Whatever it returns, for inputs in range or not, satisfies every gate and keeps the inputs. Adding a SPLIT of an existing wire at the end never changes acceptance: the result is the previous vector followed by the digits of that wire (compiled programs: exactly when the program was accepted before). CalculateSparseWitness returns the same vector exactly if no row has an output sum of residues of q or more. Refuted: that congruent inputs are treated alike (with 100 mod 101 accepted, -1 is rejected), and that the digits depend on the class only (5 and 106 get different bits, both accepted).", "quantifier": "all primes q, gate lists in solving order, solutions without division by zero, inputs in range; programs of the fragment of C59", "why_tests_cant": "All programs, wires and values, bits of inputs and of computed wires take different paths through the solver.", "anchors": ["circuitcompiler/ER1CS.go:CalculateWitness", "circuitcompiler/Programm.go:compile", "circuitcompiler/Programm.go:GatesToR1CS", "circuitcompiler/gate.go:zeroOrOneGate", "circuitcompiler/gate.go:sumCheckGate"]}
{"id": "C97", "title": "Missing values, negative numbers and unusual declarations", "statement": "Plausible claims about small programs that fail. A `return` without a value hands back the number 1 (in every function and state), so f(x)*y is y and f(x)+y is y+1. A call of a function without return panics inside an expression but is accepted as a statement. Numbers that are equal modulo q are told apart by comparisons: x-(x+3) is -3 and smaller than 1, 98 is not (q = 101). `var a += x` compiles to the gates of `var a = x`. `var b[2] = {x,y}` is accepted, but the rest of the body is dropped: no result and no gates. AND, NAND, OR and NOT are reserved names, but every call of them panics. The bits that SPLIT makes cannot be named in the program.", "quantifier": "the return rule for all functions and states, the logical calls for all arguments and states; the others exhibit programs", "why_tests_cant": "A test would have to know the program; the tests of the repository contain none of these.", "anchors": ["circuitcompiler/Programm.go:compile", "circuitcompiler/parser.go:statementMode", "circuitcompiler/circuit.go:preCompile"]}
{"id": "C98", "title": "The sudoku program checks products, not sudokus", "statement": "For the repository's example program main(x[9][9]), compiled over any prime field of at least 2^63 elements with any hash without collisions (C98_text_compiles ties the text to the program the theorems speak of): a vector satisfies the generated system only if its 81 cells, as numbers below q, lie in 1..9 and every row, column and 3x3 box has product 9!; CalculateWitness succeeds on 81 inputs exactly if they pass that test, and then its result satisfies the system. Every sudoku passes. The converse is false: a grid without any 3 passes (9*4*4 = 3*6*8).", "quantifier": "all primes q >= 2^63, hash and sort functions, inputs, vectors; the counterexample is one grid", "why_tests_cant": "The repository tests one valid grid; acceptance of 81-cell grids cannot be enumerated.", "anchors": ["testPrograms/codes.go:TestPrograms", "testPrograms/codes.go:sudoku", "circuitcompiler/ER1CS.go:CalculateWitness"]}
{"id": "C99", "title": "The inputs determine the witness, except for 0/0", "statement": "For every program covered by C81, over any prime field: if two vectors satisfy the generated system (dense, or sparse under C93's condition on numbers), agree modulo q on the inputs, and the program has a meaning for these inputs (no division by 0), then they agree modulo q on every wire. So a prover cannot keep the inputs and claim another result. Without the last condition this is false: for main(x,y,u) returning (x/y)*u with x = y = 0 and u = 1, CalculateWitness fails, but for every z a vector with result z satisfies the system. With the claim public, equal((x/y)*u,z), every z >= 0 is even proved and accepted with the code's groups (under C70's conditions on sums).", "quantifier": "all programs, primes q, inputs, pairs of vectors; for the counterexample all z", "why_tests_cant": "Tests run the repository's solver, which yields one vector; other vectors satisfying the same system are never tried.", "anchors": ["circuitcompiler/ER1CS.go:CalculateWitness", "circuitcompiler/Programm.go:Execute", "circuitcompiler/Programm.go:GatesToR1CS"]}
{"id": "C100", "title": "What the key pair example proves", "statement": "For the repository's example main(publicKey, privateKey) with scalarBaseMultiply, over any prime field: a vector with inputs a and k satisfies the generated system for some values of the other wires, and CalculateWitness accepts a and k, exactly if a is congruent to the x coordinate of k times the generator. On the code's curve two multiples have the same x coordinate exactly if their factors are equal or opposite modulo Order, so each public key has two private keys, k and Order - k. With the code's groups the proof made from a satisfying vector is accepted exactly if (1-x)k has (1-x) times the x coordinate of k, x being the setup's secret; for x = 2 it is rejected for every public key that is not 0 modulo Order.", "quantifier": "all primes, keys, setups, satisfying vectors", "why_tests_cant": "The repository tests the private key 42 with one random setup; keys and setup secrets range over 254 bits.", "anchors": ["testPrograms/codes.go:TestPrograms", "circuitcompiler/ER1CS.go:CalculateWitness", "zkSNARK/wol19.go:VerifyProof", "pairing/bn256.go:ScalarBaseMult"]}
{"id": "C101", "title": "Example programs compute their polynomials for all inputs", "statement": "Three example programs of testPrograms (nested calls with constants; a loop over an array passed through a function; nested calls with a subtraction), compiled over any prime field of at least 2^63 elements: CalculateWitness succeeds for all inputs, keeps the inputs, and returns a vector that satisfies the system; and every vector that satisfies the system carries on one of its wires, and in the linear form main returns, the program's polynomial of the vector's inputs: k z^5 + k x^5 + x^3 with k = 9724050000, 21 x^2, and (x y + z - 132) z, modulo the prime. The loop program with any other number n from 2 below the prime in place of its 8 gives F(n) x^2 in the linear form, F(n) the n-th Fibonacci number, and all of the above when the prime does not divide F(n).", "quantifier": "all primes from 2^63, orders of factors, hashes, inputs and satisfying vectors; all loop bounds of the loop program", "why_tests_cant": "The repository runs each program on a few inputs and looks only at the vector its own solver finds; the inputs are field elements and the vectors an adversary can choose are not enumerable.", "anchors": ["testPrograms/codes.go:TestPrograms", "circuitcompiler/ER1CS.go:CalculateWitness", "circuitcompiler/Programm.go:Execute"]}
{"id": "C102", "title": "Printed sparse arrays", "statement": "After any history of combining puts and removals of present keys, AvlTree.String is the list of the present entries as (key,value) in descending order of keys, whatever the shape of the tree; two trees print the same exactly if they hold the same entries, and no tree prints what a nil pointer prints.", "quantifier": "all histories of the tree", "why_tests_cant": "The tests print trees but compare no output; histories, keys and values are unbounded, and that no two contents share a text is a statement about all pairs.", "anchors": ["utils/avl.go:String", "utils/avl.go:print"]}
{"id": "C103", "title": "Printed group elements", "statement": "Elements of GT print the same exactly if they are equal in the field. Elements of G1, and of G2, that print the same are the same multiple of the generator. The converse holds in G1 for points whose third coordinate is not 1 (String makes its receiver affine and reduced); it is false in general: the negative of the generator prints as (1, -2), and as (1, P-2) once written by Marshal and read by Unmarshal; and the double of the generator of G2 prints differently before and after Marshal, which makes its receiver affine.", "quantifier": "all elements of the three groups, in every representation", "why_tests_cant": "The claims are about all pairs of representations of points over a 254-bit field; the tests print points but compare no texts.", "anchors": ["pairing/bn256.go:String", "pairing/curve.go:String", "pairing/twist.go:String", "pairing/gfp2.go:String", "pairing/gfp6.go:String", "pairing/gfp12.go:String"]}
{"id": "C104", "title": "Chains of if, else if and else are read in order", "statement": "The parser reads a chain of if, any number of else-ifs and an else, followed by any block of the grammar, into the constraints of the if arm, of the else-if arms in the order written, of the else arm, the end mark of the chain and the constraints of what follows; a chain with an else may be the last statement of its block. A chain with at least one else-if and no else at its end is rejected, whatever follows.", "quantifier": "all conditions and blocks of the grammar, all numbers of arms, all continuations", "why_tests_cant": "The repository's tests use one chain; the number of arms, and the conditions, blocks and continuations, are unbounded.", "anchors": ["circuitcompiler/parser.go:statementMode"]}
{"id": "C105", "title": "Chains run every arm whose condition holds, and always the else", "statement": "When preCompile handles a chain of if, else-ifs and else (arms without ifs inside) in the object of a block, the chain gets an object of its own with one block for each arm, in the order written, the k-th block holding the statements of the k-th arm. Running the chain runs, in order, the block of every arm whose condition holds, not only of the first, and then the block of the else whatever the conditions were, unless an arm before returned.", "quantifier": "all conditions, numbers of arms, bodies, heaps in which the block is under construction, states, hashes and orders of factors", "why_tests_cant": "The tests run one chain with constant conditions; the number of arms, the conditions and the states are unbounded.", "anchors": ["circuitcompiler/circuit.go:preCompile", "circuitcompiler/Programm.go:compile"]}
{"id": "C106", "title": "A return inside a loop or a called function never ends the caller", "statement": "When compile handles a function call (user function or built-in) and succeeds, the second result is false: the tasks after the call are run. When compile handles a for loop and the loop ends, it gives no factors and false, whatever the body returns, so the branch that passes a return of the body on (Programm.go:257-259) is dead, and running the tasks from the loop on is running the tasks after it in the state the loop leaves.", "quantifier": "all calls, loops, bodies, states, heaps, moduli, hashes and orders of factors", "why_tests_cant": "No test returns from inside a loop; the number of rounds, the bodies and the nesting of calls are unbounded.", "anchors": ["circuitcompiler/Programm.go:compile", "circuitcompiler/Programm.go:execute"]}
{"id": "C107", "title": "Compiling only appends gates, and no identifier is used twice", "statement": "Whatever constraint is compiled and whatever tasks are executed, the gates there were stay, in order and unchanged, and new ones come after them. A branch that is not taken and a loop that is not entered add no gate, whatever their condition computes. The gates of a program that compiles, in one file or several, have pairwise different identifiers, whatever the hash function: of several gates with one identifier only the first is kept.", "quantifier": "all program texts, sets of files, constraints, tasks, states, moduli, hashes and orders of factors", "why_tests_cant": "Programs, the states reached while compiling them and hash functions are unbounded; the tests look at a few finished lists of gates.", "anchors": ["circuitcompiler/Programm.go:Add", "circuitcompiler/Programm.go:compile", "circuitcompiler/Programm.go:Execute", "circuitcompiler/circuit.go:checkStaticCondition"]}
{"id": "C108", "title": "Running a program leaves functions and blocks as they were parsed", "statement": "Whatever is compiled or executed successfully, and without negating the value of a variable in place (C80), every function object there was is still there, with its name, value, parameters, context, tasks and constraints, and with the same set of declared names; only what declared names stand for changes. In particular calls do not use up the parameters of the function called, and assignments declare nothing.", "quantifier": "all programs as parsed, constraints, states, heaps, moduli, hashes and orders of factors", "why_tests_cant": "Aliasing between objects shows only in particular orders of calls and assignments; their number is unbounded.", "anchors": ["circuitcompiler/circuit.go:flatCopy", "circuitcompiler/Programm.go:getsLoadedWith", "circuitcompiler/Programm.go:compile", "circuitcompiler/Programm.go:Execute"]}
{"id": "C109", "title": "When a compiled program gets no constraint system", "statement": "For a program that compiles, the panic \"rewriting\" of GatesToR1CS and GatesToSparseR1CS happens exactly when a gate with an output has the name of a public input, of a parameter of main or of the constant; two gates never clash. That every program that compiles gets a constraint system is false: SPLIT of the result of a function that returns nothing names a bit \"1\", the name of the constant.", "quantifier": "all program texts and sets of files that compile, lists of inputs, public names without repetition, moduli, hashes and orders of factors", "why_tests_cant": "Programs and hash functions are unbounded, and no test splits the result of an empty return.", "anchors": ["circuitcompiler/Programm.go:GatesToR1CS", "circuitcompiler/Programm.go:GatesToSparseR1CS", "circuitcompiler/Programm.go:Add", "circuitcompiler/Programm.go:compile"]}
{"id": "C110", "title": "Names of the bits of SPLIT", "statement": "The name of bit i of a wire determines i and the wire, if both wires are inputs (names that do not begin with a digit), or both are gates (identifiers of one length; identifiers made from hashes have 16 characters), or one is an input and the other a gate. For numbers this is false, against the comment in the code: bit 11 of 1 and bit 1 of 11 are one wire with one gate in a program with SPLIT(1) and SPLIT(11), though the digits are 0 and 1.", "quantifier": "all bit positions, names, gates, factor lists, hashes and orders of factors", "why_tests_cant": "Names and positions are unbounded; a collision needs two particular arguments.", "anchors": ["circuitcompiler/Programm.go:compile", "circuitcompiler/gate.go:setAndGetID", "circuitcompiler/factorHandling.go:hashFactorsToBig"]}
{"id": "C111", "title": "SPLIT of a multiple of a wire", "statement": "SPLIT takes the wire its argument is a multiple of, not the multiple: two arguments that compile to multiples of one wire add the same gates. That SPLIT(2*x) gives the digits of 2*x is false: its constraints make the weighted sum of the bits x.", "quantifier": "all states, arguments, multiples, moduli, hashes and orders of factors", "why_tests_cant": "The tests split variables only; states, multiples and assignments are unbounded.", "anchors": ["circuitcompiler/Programm.go:compile", "circuitcompiler/gate.go:sumCheckGate"]}
{"id": "C112", "title": "What follows a return", "statement": "In a text a return is the last statement of its block: the parser panics unless only line breaks follow the line of the return. And what follows a return in a list of tasks is never run: with any tasks after it or none the result, the gates and the panics are the same, in main and in every other function.", "quantifier": "all token lists, files, tasks, states, moduli, hashes and orders of factors", "why_tests_cant": "No test puts a statement after a return; token lists and task lists are unbounded.", "anchors": ["circuitcompiler/parser.go:statementMode", "circuitcompiler/Programm.go:Execute", "circuitcompiler/Programm.go:execute"]}
