# Formal model of proximax-storage/go-xpx-crypto in Rocq/Coq 8.16.1

What is modelled, how every property of `properties.jsonl` is stated and proved, what is trusted.
The plan was written before the proofs (git history); this version records what was done.

## 1. Approach

The Go code is modelled function by function as executable Gallina.  Every definition of a `*Model.v`
file cites the file and lines of /repo it models.

* Go `int64` arithmetic is modelled with two's complement wrap-around, slices as lists of bytes (`Z` in
  0..255) with explicit out-of-range panics, errors and panics as values (`GoBase.res`).
* The long straight-line `int64` routines (multiply, squareAndOptionalDouble, modP, Decode, modQ,
  multiplyAndAddModQ) are a deep embedding: programs of assignments *generated from the Go text line by
  line* (`tools/gen_progs.py` writes `Progs.v`; `tools/gen_tables.py` writes `Tables.v` from
  ed25519_const.go) and run by a wrapping interpreter.  Two verified analyses in `Slp.v` (intervals; a
  backward polynomial transformer) are executed by the kernel to prove, for all inputs within the bounds,
  that nothing overflows and which number the result denotes.
* The specification is the mathematical one: F_p with p = 2^255-19 (p and q proved prime with Pocklington
  certificates), the curve -x^2+y^2 = 1+d x^2 y^2 with the affine addition law (proved complete and an
  abelian group), scalar multiplication, [q]B = O.  `GroupSpec.v` says which point a group element
  represents (`rep`), and `ApiSpec.v`, `CodecSpec.v`, `HashSpec.v`, `MathSpec.v`, `AliasSpec.v`,
  `ShareSpec.v`, ... hold the rest of the vocabulary of the statements.
* A property that is false of the code in its naive form is stated as the exact behaviour of the code, and
  the naive claim is refuted by a theorem (`*_refuted`, `*_example`, `*_wrong`, ...).
* Property theorems are in the `Prop*.v` files (not `Prop*Lemmas.v`), named `Cnn_...`.  They are closed by
  `exact` and followed by `Print Assumptions`.  Beside them `Example`s show that the hypotheses are met in
  concrete, non-trivial cases.

## 2. Files (rocq/theories)

| layer | model | vocabulary of statements | proofs | property theorems |
|---|---|---|---|---|
| Go values | GoBase | | ByteLemmas | |
| int64 programs | Slp, Progs (generated) | | Slp | |
| field | FieldModel | FieldSpec | FieldProofs, EncodeProofs, FieldPow, PropFieldLemmas | PropField (C13-C17) |
| scalars mod q | ScalarModel | FieldSpec | ScalarProofs | PropField (C18, C19) |
| mathematics | | Fp, Curve, BasePoint (definitions) | Primality, Fp, Curve, BaseCert (hints), BasePoint | PropGroup (C21) |
| group | GroupModel, Tables (generated) | GroupSpec | GroupProofs, TableProofs, PointCodec, GroupEq, ScalarMul, SlideProofs, SlideSharp, PropGroupLemmas, GroupMisuse | PropGroup (C20-C30) |
| keys, signatures | ApiModel | ApiSpec, CodecSpec | ApiProofs, VerifyProofs, PropSigLemmas, PropCodecLemmas, ExampleLemmas | PropSig (C01-C12), PropCodec (C37-C40, C42, C43) |
| every 32-byte scalar | (none) | ScalarSpec | SlideExact | PropScalar (C04, C05, C26, C28) |
| block cipher | ApiModel | ApiSpec | CipherProofs, PropCipherLemmas | PropCipher (C31-C36) |
| ciphertext bytes | (none: C66 is about ApiModel) | CipherSpec | PropFormatLemmas | PropFormat (C66) |
| the whole curve, RFC 8032 | (none: about GroupModel and ApiModel) | RfcSpec | GroupOrder, PropOrderLemmas, PropRfcLemmas | PropOrder (C67), PropRfc (C68, C69) |
| nil pointers | NilModel | (none) | PropNilLemmas | PropNil (C70) |
| unordered memory | WeakModel | WeakSpec | WeakProofs, PropWeakLemmas, PropWeakDoubleLemmas | PropWeak (C89) |
| interoperability | ApiModel with HashModel, AesModel | StdSpec, FipsSpec, AesSpec | PropStdLemmas | PropStd (C88) |
| RIPEMD-160 | MdModel | RipemdSpec | PropRipemdLemmas | PropRipemd (C87) |
| SHA-256 per FIPS 180-4 | MdModel | Sha2Spec | PropSha2Lemmas | PropSha2 (C86) |
| AES against FIPS 197 | (AesModel) | AesSpec | PropAesLemmas | PropAes (C85) |
| SHA-3 against FIPS 202 | (HashModel) | FipsSpec | PropFipsLemmas | PropFips (C84) |
| readers that break the contract | RogueModel | RogueSpec | PropRogueLemmas | PropRogue (C83) |
| handmade elements, what is printed | HandModel | HandSpec | PropHandLemmas, PropPrintLemmas | PropHand (C81), PropPrint (C82) |
| BufferedBlockCipher with memory | BufModel (memory of AliasModel) | BufSpec | PropBufLemmas | PropBuf (C65) |
| goroutines on one element | RaceModel | RaceSpec | RaceProofs, PropRaceLemmas | PropRace (C80) |
| conversions of MathUtils | MathModel | FieldSpec, ExprSpec | PropConvLemmas | PropConv (C79, C46) |
| field expressions | ExprModel | ExprSpec | PropExprLemmas | PropExpr (C78) |
| accepted signatures | ApiModel | ApiSpec | PropNonceLemmas | PropNonce (C77) |
| programs over group elements | ProgModel | ProgSpec | PropProgLemmas | PropProg (C76) |
| goroutines and readers | ConcModel | ConcSpec | PropConcLemmas | PropConc (C75) |
| repeated blocks | (none: C74 is about ApiModel) | CipherSpec | PropCbcLemmas | PropCbc (C74) |
| strings that are points | (none: C73 is about GroupModel) | EncSpec | PropEncLemmas | PropEnc (C73) |
| recovered panics | RecoverModel | RecoverSpec | PropRecoverLemmas | PropRecover (C72) |
| arbitrary readers | ReaderModel | ReaderSpec | PropReaderLemmas | PropReader (C71) |
| hash functions | HashModel | HashSpec | HashProofs, PropHashLemmas | PropHash (C44) |
| AES | AesModel | ApiSpec (cipher_ok) | AesProofs | PropConcrete (C01, C32 without hypotheses on algorithms) |
| math.go | MathModel | MathSpec | MathProofs, MathAdd, MathMul, MathDecode, PropMathLemmas | PropMath (C45-C48) |
| memory of slices | AliasModel | AliasSpec | AliasProofs, PropAliasLemmas | PropAlias (C41) |
| sharing of elements | ShareModel | ShareSpec | ShareProofs, PropShareLemmas | PropShare (C49) |
| points of order 8, attacks | (none: C50-C53 are about ApiModel) | Torsion (list of small-order keys) | Torsion, PropSecLemmas | PropSec (C50-C53) |
| readers, engines, histories | SessionModel | SessionSpec | SessionProofs, PropSessionLemmas | PropSession (C54) |
| SHA-256, RIPEMD-160 | MdModel | MdSpec | MdProofs, PropMdLemmas | PropMd (C55) |
| padding oracle | (none: C61 is about ApiModel) | PadSpec (the attacker) | PadProofs, PropPadLemmas | PropPad (C61) |
| text, Select, precomputations, bouncycastle_crypto.go | TextModel | TextSpec | PropTextLemmas | PropText (C62-C65) |
| branches of the secret-handling code | LeakModel | LeakSpec | LeakProofs, PropLeakLemmas | PropLeak (C60) |
| memory, goroutines | MemModel | MemSpec | MemProofs, MemApi, MemClients, PropMemLemmas | PropMem (C56-C59) |

`ModelTests.v` runs the model on vectors of the repository's tests; `tools/vectors/run.sh` extracts the
model and reproduces the repository's Test_Encrypt vector end to end (SHA-3, AES, scalar multiplication).
They test the transcription; no theorem depends on them.

## 3. Plan per property

| id | modelled / how proved |
|----|----|
| C01 | Sign, Verify, NewKeyPair over an arbitrary 64-byte hash; algebra in the proved group: [S]B-[h]A=[r]B. `C01_library`: SHA3-512. |
| C02 | result of Sign analysed completely; canonicity test on the low 64 bits. |
| C03 | functional specification of Sign from the curve. |
| C04 | Verify as an iff with the verification equation; slide gives the first 256 digits of the width-5 NAF, for every S. |
| C05 | exact class of the accepted S modulo q, malleability S -> S+q; uniqueness below q because B has order q. |
| C06 | exact characterisation by the low 64 bits; the range test is shown to differ. |
| C07 | modQ correct and idempotent; verification preserved below 2^255, counterexample above. |
| C08 | Verify's model can return Panic; never does when len S >= 32, always does for short S that reach the loads. |
| C09 | false for every length but 32 and 64; a 64-byte key is accepted (witness). |
| C10 | zero key rejected; with the key 0100..00 every message is forgeable. |
| C11 | the optional private key in the model of the pair. |
| C12 | clamping bit by bit and scalarMultiply with the built-in tables. |
| C13 | Slp analyses: no overflow, value modulo p, bounds. |
| C14 | exponent chain = p-2, Fermat from the primality of p. |
| C15 | modP exact, byte packing; refuted for arbitrary limbs. |
| C16 | byte unpacking, Slp analysis of Decode, all lengths. |
| C17 | exponent chain, Euler's criterion in F_p. |
| C18, C19 | Slp analyses in three stages, full reduction to [0,q). |
| C20 | algebra in F_p for each formula, completeness of the addition law. |
| C21 | associativity by explicit polynomial certificates; q prime; [q]B=O by checked computation. |
| C22, C23 | rep relation, invert, sqrt; re-encoding refuted for non-canonical strings. |
| C24 | Equals with recover; iff for the convertible pairs; symmetry refuted. |
| C25 | toCoordinateSystem as a match; panics for all other pairs. |
| C26, C28 | digit expansions (toRadix16, slide), table relation, loop invariants; exact multipliers for all scalars. |
| C27 | refuted: panic for every scalar when the table is nil or empty. |
| C29 | tables checked by computation and lifted to the points [(j+1)256^i]B, [2i+1]B. |
| C30 | iff with the curve equation in F_p. |
| C31 | commutativity of scalar multiplication. |
| C32-C36 | cipher model over a block permutation and SHA3-256; CBC and padding proved; AES-256 proved to be a permutation for each key. |
| C37-C40 | hex, key and signature models; exact acceptance sets for every string and integer. |
| C41 | heap of arrays, slices with offset, length and capacity, append in place; histories of calls by induction. |
| C42, C43 | byte stream source, NewKeyPair. |
| C44 | incremental sponge object (buffer, partial writes) = one-shot sponge of the concatenation. |
| C45-C48 | math.go on Z; the digit array that a big.Int passed by value shares is modelled explicitly. |
| C49 | objects with pointers to coordinates and tables; invariant by induction on the list of calls. |
| C50 | encryption unfolded to salt, IV and CBC blocks; the altered ciphertext is the encryption of the altered message under the altered IV, so the round trip lemma applies. |
| C51 | the curve equation solved for 8P = 0 (a quartic with one square root); the scalar is a multiple of 8. |
| C52 | difference of the two signature equations, Fermat inverse modulo q; then the verification equation backwards. |
| C53 | q prime, scalars are multiples of 8 in [2^254, 2^255), 8q exceeds the range. |
| C54 | readers as lists of chunks with errors, io.ReadFull, engines; induction on the list of calls. |
| C55 | buffered Merkle-Damgard object = one-shot iterated hash of the padded message; the digest is the chaining state. |
| C56 | the calls as programs of single byte accesses on shared and own arrays; invariant over all schedules: a goroutine is where it would be alone after its turns. |
| C57 | each program refines the byte-string model of ApiModel and writes to new arrays only. |
| C58 | the append in Bytes; explicit schedules for the two answers. |
| C59 | one write to the buffer; the equation of Verify for a key pair with another public key. |
| C60 | the functions on the scalar's way once more with the list of conditions they evaluate; same results by unfolding; the trace of a multiplication computed digit by digit. |
| C61 | the attacker as a tree of questions; a guess is accepted exactly when it makes valid padding; induction on the known bytes, then on the blocks. |
| C62 | the String, Equals, IsNonZero, IsNegative methods as functions to byte lists; hex and fixed lengths are injective; C15, C23 for the values. |
| C63 | Select with int wrap-around; the two bit tricks are characterised by bits 0-7 and bit 8; then case distinction on the residue modulo 512. |
| C64 | state machine with two flags; induction on the list of calls. |
| C65 | state machine with one (always empty) buffer; induction on the list of calls. |
| C66 | CBC as a relation between blocks by index, PKCS #7 as a relation; the recursive functions of the model satisfy them, and they have one solution. |
| C67 | aB + jT (a < q, j < 8) are 8q different points; a further point would give 16q > 2p of them, but y and one bit determine a point. Key agreement then reduces to divisibility by q and 8. |
| C68 | RFC 8032 verification written down separately; decoding by the RFC is equality with the canonical encoding; the cofactored equation and C04 differ by a point killed by 8, using that 8q kills every point. |
| C69 | From C04 for derived keys: both equations determine S B - R; q is prime and does not divide a secret scalar. |
| C70 | Pointers as options, followed in the order of the code; case analysis over the steps, each of which is known not to panic from C01-C36; without nil the calls are those of ApiModel. |
| C71 | The reader is any state machine; the loop of io.ReadFull gets a bound on its Reads; deliver/fail as inductive, stall as coinductive predicates; induction and coinduction. |
| C72 | Calls return the element as it is afterwards, also when they panic; tables with nil entries and rows; invariant over the sequence of calls, then the multiplications on the one-entry table by induction over the digits. |
| C73 | Certificates (x, or a root of 2uv, 2 being no square) decide which y below 19 are on the curve; then C23 and the 8q points of C67. |
| C74 | The CBC relation of C66, block by block; the block permutation is injective; xor laws; induction over blocks for prefixes. |
| C75 | machine of goroutines and readers with any schedule; invariant: the answers of a call's own Reads are a prefix of a run of io.ReadFull that stands where the goroutine stands; positions on tapes by induction over the Reads; a measure for termination; simulation for separate readers. |
| C76 | Simulation relation between `ge` and (coordinate system, point, table states); one lemma for each call, then induction over the program; double multiplication with missing tables by exchanging tables that are only used with digit 0 |
| C77 | accepted signatures of a derived key = signing equations for some nonce; from C04's exactness, injectivity of the encoding and the order of B |
| C78 | induction over the expression with the limb bounds of C13 as invariant; sqrt by the closed form u v^3 (u v^7)^((p-5)/8); refutation by computing 64 doublings |
| C79 | conversions over all integers; GetAffineXFromAffineY characterised by the fourth roots of unity and a nonsquare |
| C80 | calls as programs of loads and stores; an invariant on the memory and the remaining program of every call, preserved by every step of every schedule |
| C81 | HandModel: coordinates as options, systems as numbers; case analysis on nil coordinates and systems, agreement with GroupModel on lifted elements |
| C82 | HandModel: outcome paired with what was printed; Verify by the analysis of C06/C70 (decode fails or everything after it succeeds) |
| C83 | RogueModel: the Read method gets and returns all buffers it ever saw, any number and a panic; relations claims / gives_up / breaks characterise io.ReadFull by induction on fuel and on the relations; link to C71 for honest readers |
| C84 | FIPS 202 on bit strings written as the standard does; lanes of the model simulate the state array, step by step; the sponge by induction on blocks. |
| C85 | FIPS 197 written without tables; the tables checked for every byte, the transformations for every block, the schedule and the rounds by induction. |
| C86 | SHA-256 as a relation on bit strings from FIPS 180-4 (functions, constants by roots of primes, padding, schedule, turns); the model's digest satisfies it and it has one solution. |
| C87 | RIPEMD-160 as a relation from its paper; the model's hash value satisfies it and it has one solution. |
| C88 | Keys, signatures and messages described by FIPS 202, FIPS 197, CBC, PKCS #7 and the curve alone; equality with the model's outputs from C84, C85, C66 and the exact Verify; uniqueness of each description's solution. |
| C89 | the programs of RaceModel on a memory where a load gives nil or any earlier store; every program stores only right entries and ends right whatever its loads give (fine), preserved by every step; RaceModel's runs simulated; the run where all rows are loaded as nil; doubleScalarMultiplyVariableTime as a relation between the stores there were and its results, by induction over the digits |

## 4. Trusted base

* Coq 8.16.1's kernel and, during the build, its VM (`vm_compute`); `coqchk` rechecks without the VM.
* `Print Assumptions` answers "Closed under the global context" for **every** property theorem: no axiom,
  neither of ours nor of the standard library, is used.  (`coqchk -o` lists the constants
  `Coq.ssr.ssrunder.Under_rel.*` because the library file declaring them is loaded; no theorem uses them.)
* That the model is what the Go code does: each definition cites the lines it models; the long routines and
  tables are generated from the Go text.
* Contracts of code outside /repo (the dependencies are not in the sandbox):
  * go-xpx-utils: `BytesToBigInteger` is little endian; `BigIntToByteArray(v,32)` is the little endian form
    of |v|, excess high bytes dropped; `HexDecodeStringOdd` puts "0" in front of a string of odd length;
    `GetBitToBool` tests a bit.
  * math/big (Go 1.12): values are integers, Euclidean Mod; `Uint64` is the low 64 bits of |x|; results are
    written into the receiver's digit array when its capacity suffices (needed in C45 only).
  * golang.org/x/crypto/sha3: the sponge of `HashModel.v`; crypto/aes and crypto/cipher: `AesModel.v` and CBC
    as in `ApiModel.v` (CryptBlocks panics on partial blocks, NewCBC... on a wrong IV length).
  * io.ReadFull: as in `SessionModel.v` (elsewhere: n bytes or an error); crypto/rand: any bytes, over which
    theorems quantify.  crypto/sha256 and x/crypto/ripemd160: `MdModel.v`.
  * Go: slices, append, copy (the Go specification); the capacity `append` gives a new array is a parameter.

## 5. What is modelled and what is not

Modelled: ed25519_encode.go, ed25519_const.go (tables and constants), ed25519_model.go, key_model.go,
key_pair.go, signature.go, math.go, the hash functions and the constant-time helpers of crypto.go,
the delegation in signer.go, cipher_model.go, crypto_engine.go (SessionModel).

Not modelled:
* Panics that the caller recovers from, except those of the precomputations (RecoverModel, C72).
* Readers that break the contract of io.Reader, except in RogueModel (C83); readers that write to a slice they were
  handed while no Read is running.
* Texts of error values, except those Verify prints (C82; errors are distinguished by kind).  The `fmt.Println` in
  PrepareForScalarMultiply, which is reached only when the hash function fails.
* Timing: nothing is claimed about time or caches.  C60 is about the outcomes of conditions, the lengths tested and
  the table rows taken in the code modelled by LeakModel; what math/big, the hash functions and the compiler do is
  outside.
* Coordinates X, Y, Z that are nil pointers and unknown coordinate systems, except in HandModel (C81, methods without
  tables): the library's own constructors never make them.  A nil KeyPair, a
  KeyPair literal without public key and a nil Signature are only in NilModel (C70); elsewhere they are excluded.
* Memory, except in AliasModel (signatures), ShareModel (group elements), the digit array in MathModel, and
  MemModel (byte arrays of all calls).
* Concurrency, except in ConcModel (goroutines sharing readers, one Read being atomic: C75), RaceModel (goroutines that
  precompute and use the tables of one element; single loads and stores are atomic and seen in one order, which Go
  does not promise for these racy calls: C80), WeakModel (the same calls when loads give nil or any value ever stored
  there: C89; C80_safe_use_has_no_race: calls after completed precomputations have no data races, so for them one order
  is what Go promises) and MemModel: there
  single byte accesses are atomic and interleave in any order (a Go
  program without data races behaves so; C56 shows that no shared byte is written).  A panic stops one goroutine
  there, in Go the process.  Goroutines hand nothing to each other while they run; field and group elements
  (the base point and its tables, which no call modifies: C49) are values there.
* Limits of memory and `int` (lengths are unbounded natural numbers).

Simplifications that matter for reading the statements: Decrypt slices its input, and Go would allow
`input[:keyLength]` up to the capacity; ApiModel takes the capacity to be the length (C57_decrypt shows, with
capacities, that the outcome is the same).  Limb bounds: `bnd k`
says limbs are at most k/100 times 2^25 resp. 2^24 in absolute value; the constructors and Decode give 101.

## 6. Wrong programs

`seeded/mutants.py` lists realistic bugs as edits of one definition of the model; `seeded/run.py` applies each
to a scratch copy, rebuilds and appends what failed to `seeded/LOG.jsonl` (`failed_lemmas`: where the build
stopped in each file; `theorems_failed`: property theorems that depend on such a lemma).  Mutants that survive
are either equivalent programs (noted so) or led to a stronger theorem (`tightened`).
