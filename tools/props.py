import json
P=[]
def p(title, statement, quantifier, why, anchors):
    P.append(dict(id="C%02d"%(len(P)+1),title=title,statement=statement,quantifier=quantifier,why_tests_cant=why,anchors=anchors))
EM="ed25519_model.go"; EE="ed25519_encode.go"; KM="key_model.go"; SG="signature.go"; MT="math.go"
p("Sign then Verify accepts",
  "For every private key, the signer built on NewKeyPair(priv, nil, nil) accepts, with Verify, every signature its own Sign returns for the same message.",
  "every private-key byte string, every message, every 64-byte-output hash function in place of SHA3-512",
  "needs the group law, two different scalar multiplication algorithms, mod-q arithmetic and 10-limb field arithmetic to be right on all 2^256 scalars; the test samples 1000 random keys with one message",
  [EM+":Ed25519DsaSigner.Sign",EM+":Ed25519DsaSigner.Verify",EE+":scalarMultiply",EE+":doubleScalarMultiplyVariableTime"])
p("Sign never panics and its failures are exactly known",
  "With a derived key pair, Sign returns either a signature (R of 32 bytes, S of 32 bytes encoding a number below the group order q) or the error 'Generated signature is not canonical'; the error happens exactly when the low 64 bits of the S it computed are 0 or equal the low 64 bits of q.",
  "every private key, every message, every hash function",
  "the failing inputs have probability about 2^-63, so random tests never meet them",
  [EM+":Ed25519DsaSigner.Sign",EM+":IsCanonicalSignature"])
p("Sign computes the Ed25519 equations",
  "Sign(m) = (R, S) with R the encoding of [r]B, S = (r + h*a) mod q, where a is the clamped low half of H(priv), r = H(high half of H(priv) || m) mod q and h = H(R || A || m) mod q; in particular it is deterministic and does not depend on any random source.",
  "every key pair, message, hash function",
  "equality with a mathematical specification for all inputs",
  [EM+":Ed25519DsaSigner.Sign",EE+":PrepareForScalarMultiply",EE+":modQ",EE+":multiplyAndAddModQ"])
p("Verify decides exactly the verification equation",
  "For a signature with 32-byte R and 32-byte S < 2^255, and a 32-byte public key, Verify returns true if and only if the low-64-bit canonicity test passes, the public key is not 32 zero bytes, the public key decodes to a curve point A, and R is the encoding of [S]B - [h]A with h = H(R||A||m) mod q; for S above 2^255 the integer used for S is given exactly.",
  "every signature, public key, message, hash function",
  "both directions for all points and scalars; tests only check accepted signatures",
  [EM+":Ed25519DsaSigner.Verify",EE+":doubleScalarMultiplyVariableTime"])
p("Signatures are not malleable",
  "If Verify accepts (R, S) for a message then no other S' with S' different from S is accepted with the same R, key and message. (False of the code: S + q is accepted as well; true among S < q.)",
  "every accepted signature",
  "a counterexample needs an adversarial S, and the positive half needs the exact order of the base point",
  [EM+":IsCanonicalSignature",EM+":Ed25519DsaSigner.Verify"])
p("IsCanonicalSignature means 0 < S < q",
  "IsCanonicalSignature returns true exactly when the S part, read as a little endian number, is strictly between 0 and the group order. (False of the code: only the low 64 bits of S are inspected.)",
  "every 32-byte S",
  "the deviation is visible only for adversarially chosen S",
  [EM+":IsCanonicalSignature","dsa_signer.go:DsaSigner"])
p("MakeSignatureCanonical reduces S modulo q and changes nothing else",
  "MakeSignatureCanonical keeps R, replaces S by S mod q in 32 bytes, never fails on 32-byte signatures, is idempotent, and the result verifies whenever the input verifies and the reduced S passes the canonicity test.",
  "every signature with 32-byte parts, every key and message",
  "all S up to 2^256",
  [EM+":MakeSignatureCanonical",EE+":modQ"])
p("Verify never panics on well-formed signatures",
  "For every public key byte string (any length), every message and every signature whose S part has at least 32 bytes, Verify returns a boolean without panicking; R of a length other than 32 gives false. (With an S part shorter than 32 bytes, which the constructors never produce, the code panics unless an earlier check already returned false.)",
  "every public key byte string, signature, message",
  "undecodable keys, off-curve points and odd lengths are an unbounded input space",
  [EM+":Ed25519DsaSigner.Verify",EE+":slide"])
p("Public keys of the wrong length are rejected by Verify",
  "Verify returns false whenever the public key is not exactly 32 bytes long. (False of the code for 64-byte keys; true for every other length.)",
  "every public key length",
  "tests only use 32-byte keys",
  [EM+":Ed25519DsaSigner.Verify",EE+":NewEd25519EncodedFieldElement",EE+":GetAffineY"])
p("Degenerate public keys are rejected",
  "Verify returns false for the all-zero public key for every message and signature; and no public key lets a signature made without any private key verify for every message. (The second half is false of the code: the key 0100..00, the neutral element, accepts (enc([s]B), s) for every message.)",
  "every message and signature",
  "needs reasoning about low-order points",
  [EM+":Ed25519DsaSigner.Verify"])
p("Signing without a private key is an error",
  "Sign on a key pair without a private key returns the error 'cannot sign without private key' and never a signature or a panic.",
  "every public key and message",
  "must hold for every key pair",
  [EM+":Ed25519DsaSigner.Sign","key_pair.go:HasPrivateKey"])
p("Derived public keys are the clamped multiple of the base point",
  "DerivePublicKey(priv) is the 32-byte encoding of [a]B where a is H(priv)[0..31] clamped; a is a multiple of 8 with 2^254 <= a < 2^255; derivation never panics and the encoding decodes back to [a]B.",
  "every private-key byte string of every length, every hash function",
  "all scalars; tests compare a handful of values",
  [EM+":DerivePublicKey",EE+":PrepareForScalarMultiply",EE+":scalarMultiply"])
p("Field addition, subtraction, negation and multiplication are exact",
  "For limbs within the documented bounds the field operations compute the sum, difference, negation, product, square and doubled square modulo p = 2^255-19, no int64 operation overflows, and the result satisfies the documented output bounds.",
  "every pair of 10-limb elements within the documented bounds",
  "2^500 inputs; overflow happens only at extreme limb values that random tests (which in this repo all use one constant element) do not reach",
  [EE+":multiply",EE+":square",EE+":squareAndDouble",EE+":add",EE+":subtract",EE+":negate"])
p("Field inversion",
  "invert(x) * x = 1 modulo p for every x not congruent to 0, and invert(0) = 0.",
  "every field element within bounds",
  "needs Fermat's little theorem and the primality of p",
  [EE+":invert",EE+":pow2to252sub4"])
p("Field Encode is canonical",
  "Encode returns the 32-byte little endian encoding of the value modulo p (so bit 255 is clear and equal field values have equal bytes), for every element within bounds. Equals, IsNonZero and IsNegative decide equality, non-zeroness and oddness of the value modulo p. (For arbitrary int64 limbs, which the exported constructor accepts, it is false.)",
  "every 10-limb element with |limb| below 1.65*2^26 (even) / 1.65*2^25 (odd)",
  "the final reduction goes wrong only near multiples of p",
  [EE+":modP",EE+":Encode",EE+":IsNegative",EE+":IsNonZero",EE+":Equals"])
p("Field Decode inverts Encode",
  "Decode reads 32 bytes as a little endian number ignoring bit 255; the resulting limbs are within the bounds every operation needs; Encode(Decode(b)) = b exactly when b encodes a number below p, and otherwise is the encoding of the reduced number.",
  "every 32-byte string",
  "non-canonical encodings are 19 out of 2^255 values",
  [EE+":Ed25519EncodedFieldElement.Decode",EE+":Ed25519FieldElement.Encode"])
p("Square root of a fraction",
  "Ed25519FieldElementSqrt(u, v) returns x with v*x^2 = u or v*x^2 = -u whenever u/v is a square (v non-zero), and 0 for u = 0.",
  "every u, v within bounds",
  "all field elements",
  [EE+":Ed25519FieldElementSqrt"])
p("Reduction modulo the group order",
  "modQ maps every 64-byte string to the 32-byte encoding of its value modulo q, fully reduced (below q). A longer argument is read up to its first 64 bytes; a shorter one panics.",
  "every 64-byte string",
  "2^512 inputs; overflow and final-carry errors are invisible to random tests",
  [EE+":modQ"])
p("Multiply-add modulo the group order",
  "multiplyAndAddModQ(a,b,c) is the 32-byte encoding of (a*b+c) mod q, fully reduced, for every 32-byte a, b, c. Longer arguments are read up to their first 32 bytes; if any is shorter the call panics.",
  "every triple of 32-byte strings",
  "2^768 inputs",
  [EE+":multiplyAndAddModQ"])
p("Group operations implement the complete Edwards addition law",
  "add, subtract, precomputedAdd, precomputedSubtract, dbl and negate return representations of P+Q, P-Q, 2P, -P for all curve points P, Q (including equal, opposite and neutral ones); the results are on the curve and within the limb bounds the next operation needs. In any other coordinate system add, subtract, precomputedSubtract and dbl panic, precomputedAdd and negate return an error.",
  "every pair of curve points in the accepted coordinate systems",
  "exceptional cases of addition formulas; closure under arbitrarily long operation sequences",
  [EE+":add",EE+":dbl",EE+":precomputedAdd",EE+":precomputedSubtract",EE+":subtract",EE+":negate"])
p("The curve points form an abelian group in which B has order q",
  "Edwards addition is total on curve points, associative, commutative, has a neutral element and inverses; [n]B is neutral exactly when q divides n.",
  "all curve points",
  "associativity over 2^255 points; primality of p and q",
  [EE+":Ed25519Group",EE+":getBasePoint"])
p("Point encoding round-trips",
  "For every group element in coordinates P2, P3 or P1xP1 Encode returns 32 bytes that depend only on the affine point, and Decode of them returns the same point.",
  "every curve point in every supported representation",
  "sign bit and square-root branch for all points",
  [EE+":Ed25519GroupElement.Encode",EE+":Ed25519EncodedGroupElement.Decode"])
p("Point decoding accepts exactly encodings of curve points",
  "Decode of 32 bytes succeeds iff some curve point has the y coordinate given by bits 0..254 (mod p); the result is on the curve and its x has the parity given by bit 255 unless x = 0. Re-encoding gives back the input for canonical input. (Not for non-canonical input: y >= p, or x = 0 with sign bit 1, are accepted.)",
  "every 32-byte string",
  "all strings; non-canonical ones are rare",
  [EE+":GetAffineX",EE+":GetAffineY",EE+":Ed25519EncodedGroupElement.Decode"])
p("Equals on group elements is equality of points",
  "Equals returns true iff both operands denote the same point, for P2, P3, P1xP1 and CACHED operands, in either order. (False of the code when the second operand cannot be converted to the first operand's coordinate system: P3.Equals(P2) is false even for equal points, so Equals is not symmetric.)",
  "every pair of represented points and coordinate systems",
  "projective representatives are unbounded",
  [EE+":Ed25519GroupElement.Equals",EE+":toCoordinateSystem"])
p("Coordinate conversions preserve the point",
  "toCoordinateSystem returns a representation of the same point for P2->P2, P3->P2/P3/CACHED, P1xP1->P2/P3/P1xP1, PRECOMPUTED->PRECOMPUTED, CACHED->CACHED and panics for every other pair.",
  "every represented point and every pair of coordinate systems",
  "all representatives",
  [EE+":toCoordinateSystem"])
p("Scalar multiplication",
  "For every curve point P with its table precomputed and every 32-byte scalar a < 2^255, scalarMultiply(a) returns [a]P in P3 coordinates without error. For larger 32-byte scalars the result is exactly [a - 16^63 t]P when the top signed digit t exceeds 8, [a]P otherwise.",
  "every point and every 32-byte scalar",
  "2^510 combinations; digit recoding and table lookup edge cases",
  [EE+":scalarMultiply",EE+":toRadix16",EE+":Select",EE+":PrecomputeForScalarMultiplication"])
p("Scalar multiplication precomputes its table on demand",
  "As documented, scalarMultiply works on an element whose table has not been precomputed. (False of the code: it panics.)",
  "every element without a table",
  "documentation claim about all elements",
  [EE+":scalarMultiply",EE+":Select"])
p("Double scalar multiplication",
  "basePoint.doubleScalarMultiplyVariableTime(A, a, b) returns [b]B - [a]A for every curve point A with its table precomputed and all 32-byte a, b < 2^255; for larger scalars the multiplier is the value of the 256 low digits of the width-5 non-adjacent form.",
  "every point and all 32-byte scalars",
  "sliding window recoding with carries is data dependent",
  [EE+":doubleScalarMultiplyVariableTime",EE+":slide",EE+":PrecomputeForDoubleScalarMultiplication"])
p("The built-in base point tables are correct",
  "Entry (i, j) of the single table is the PRECOMPUTED form of [(j+1)*256^i]B and entry i of the double table that of [2i+1]B; the base point is the point with y = 4/5 and even x; d, 2d and I are the constants of the curve.",
  "all 264 entries (10 limbs x 3 coordinates)",
  "a finite domain but each entry must be right as a field value; the repository test compares them with its own MathUtils",
  ["ed25519_const.go:basePrecSingle","ed25519_const.go:basePrecDouble",EE+":getBasePoint"])
p("SatisfiesCurveEquation decides the curve equation",
  "SatisfiesCurveEquation is true exactly when (X/Z, Y/Z) satisfies -x^2+y^2 = 1+d*x^2*y^2, for P2/P3 elements with Z non-zero, and is true for every element produced by the group operations.",
  "every P2/P3 element within bounds",
  "all field values",
  [EE+":SatisfiesCurveEquation"])
p("Key agreement is symmetric",
  "GetSharedKey(privA, pubB, salt) = GetSharedKey(privB, pubA, salt) for all key pairs derived from private keys and all salts; it is a 32-byte key and no step fails or panics. For any keys, salt and length n of the recipient's public key: an error if the public key does not decode, a panic if n is above 32 or the salt shorter than n, else the hash of the encoded secret multiple of the point with its first n bytes xored with the salt.",
  "every pair of private keys, every salt of 32 bytes (for the exact value: every public key string, salt and length), every hash function",
  "commutativity of scalar multiplication through encoding and decoding for all scalars",
  [EM+":GetSharedKey"])
p("Decrypt inverts Encrypt",
  "For derived sender and recipient key pairs, Decrypt(Encrypt(m)) = m for every message m (including empty and block-multiple lengths) and every random stream with at least 48 bytes.",
  "every message, key pair, random stream, block cipher and hash function",
  "all lengths and all keys; the test uses one message",
  [EM+":Encrypt",EM+":Decrypt",EM+":encode",EM+":decode"])
p("Ciphertext layout",
  "Encrypt output is salt (32 bytes) || iv (16 bytes) || CBC ciphertext, of length 48 + 16*(len(m)/16 + 1); salt and iv are the first 48 bytes of the random source, which is otherwise untouched; if the source has fewer bytes Encrypt returns an error.",
  "every message and random stream",
  "all lengths and all short streams",
  [EM+":Encrypt"])
p("Decrypt returns an error instead of crashing on malformed input",
  "For every input byte string Decrypt returns a message or an error. (False of the code: inputs of 64 bytes or more whose length is not a multiple of 16 make it panic; true for all other lengths.)",
  "every input byte string",
  "all lengths",
  [EM+":Decrypt",EM+":decode"])
p("Decrypt accepts exactly correctly padded plaintexts",
  "When Decrypt returns a message m, re-padding m and CBC-encrypting it under the same key and iv gives exactly the received ciphertext; every other block-aligned ciphertext gives an error.",
  "every ciphertext of at least 64 bytes and length a multiple of 16",
  "padding edge cases (0, 1..16, >16, inconsistent fill)",
  [EM+":decode"])
p("Encrypting or decrypting without the needed private key is an error",
  "Encrypt with a sender pair without private key, and Decrypt with a recipient pair without private key, return errors. (False of the code: both panic.)",
  "every message, every key pair without private key",
  "applies to all inputs",
  [EM+":Encrypt",EM+":Decrypt",EM+":GetSharedKey"])
p("Hex round-trip of keys",
  "NewPrivateKeyfromHexString(k.String()) = k and NewPublicKeyfromHex(k.String()) = k for every 32-byte key (lower or upper case); a string of an odd number of digits is read as with a 0 in front; strings decoding to another length, or containing a non-hex character, are rejected with an error; an accepted key always has 32 bytes.",
  "every key and every string",
  "all strings",
  [KM+":NewPrivateKeyfromHexString",KM+":NewPublicKeyfromHex",KM+":String"])
p("Private keys survive conversion through big integers",
  "NewPrivateKeyFromBigInt applied to the big-endian integer of a 32-byte private key gives the same private key. (False of the code when the key starts with a zero byte; true otherwise.)",
  "every 32-byte private key",
  "fails for 1 key in 256",
  [KM+":NewPrivateKeyFromBigInt",KM+":NewPrivateKey"])
p("Signature bytes round-trip",
  "NewSignatureFromBytes(b) succeeds iff len(b) = 64, and then Bytes() = b, R = b[0:32], S = b[32:64]; NewSignature succeeds iff both parts have 32 bytes; NewSignatureFromBytes(sig.Bytes()) = sig.",
  "every byte string",
  "all lengths",
  [SG+":NewSignatureFromBytes",SG+":NewSignature",SG+":Bytes"])
p("Signatures built from big integers keep their values",
  "NewSignatureFromBigInt(r, s) returns a signature with GetR() = r and GetS() = s, or an error; it rejects negative and too large values, and accepts GetR()/GetS() of any signature. (Only for 0 <= r, s <= 2^31-1: the guard looks at the low 64 bits of the absolute value, so -5 and 2^256 are accepted and altered while ordinary 253-bit values are rejected.)",
  "every pair of integers",
  "values beyond 64 bits",
  [SG+":NewSignatureFromBigInt",SG+":GetR",SG+":GetS"])
p("Signature.Bytes does not disturb memory",
  "Calling Bytes() any number of times, on any signatures, never changes any byte visible through other slices, and previously returned byte slices keep their contents. (True when the capacity of R equals its length, as for signatures returned by Sign; false when R is a sub-slice with spare capacity.)",
  "every heap, every history of calls",
  "aliasing depends on slice capacities and call history",
  [SG+":Bytes",SG+":NewSignatureFromBytes"])
p("Random key generation",
  "GenerateKeyPair reads exactly 32 bytes from its source, uses them as the private key, returns the matching public key, and returns an error without a key when the source has fewer than 32 bytes.",
  "every random source",
  "all streams incl. short ones",
  [EM+":GenerateKeyPair","key_pair.go:NewRandomKeyPair"])
p("NewKeyPair",
  "NewKeyPair(priv, nil) derives the public key; NewKeyPair(priv, pub) accepts exactly 32-byte pub and keeps both as given; a returned pair with a private key has the public key belonging to it. (The last part is false of the code: a mismatching pair is accepted.)",
  "every key pair",
  "all keys",
  ["key_pair.go:NewKeyPair",EE+":IsKeyCompressed"])
p("Multi-part hashing",
  "HashesSha3_512(a, b, ...) equals the SHA3-512 hash of the concatenation, so moving a boundary between parts does not change it, and no call returns an error.",
  "every list of byte strings",
  "all splits",
  ["crypto.go:HashesSha3_512"])
p("Reference arithmetic in MathUtils agrees with the optimised code",
  "MathUtils.AddGroupElements, DoubleGroupElement, NegateGroupElement, ScalarMultiplyGroupElement, ReduceModGroupOrder and multiplyAndAddModGroupOrder return the same points and numbers as the group and scalar specification.",
  "every curve point and field element",
  "all inputs",
  [MT+":AddGroupElements",MT+":ScalarMultiplyGroupElement",MT+":ReduceModGroupOrder"])
p("MathUtils.ToGroupElement decodes points",
  "MathUtils.ToGroupElement(bytes) returns the point encoded by bytes and leaves bytes unchanged. (False of the code: it does not return the base point for the base point's encoding, and clears the top bit of the argument.)",
  "every encoding",
  "exported helper without a test",
  [MT+":ToGroupElement",MT+":GetAffineXFromAffineY"])
p("MathUtils.ToRepresentation preserves points",
  "ToRepresentation(g, c) denotes the same point as g for all source and target systems. (False of the code for PRECOMPUTED sources; true for P2, P3, P1xP1 and CACHED sources.)",
  "every point and pair of systems",
  "all points",
  [MT+":ToRepresentation",MT+":getNeeCoor"])
p("GetRandomFieldElement is random",
  "Different random streams can yield different elements. (False of the code: it returns the same constant element for every stream, so the repository's field tests exercise one value.)",
  "every random stream",
  "a statement about all streams",
  [MT+":GetRandomFieldElement"])
p("The shared base point is never altered",
  "No sequence of BASE_POINT(), PrecomputeForScalarMultiplication, PrecomputeForDoubleScalarMultiplication, scalarMultiply, doubleScalarMultiplyVariableTime, Sign, Verify calls changes what later BASE_POINT() calls return.",
  "every history of operations on copies of the base point",
  "histories are unbounded",
  [EE+":BASE_POINT",EE+":copy",EE+":PrecomputeForScalarMultiplication"])
p("Ciphertexts are not authenticated",
  "Decrypt accepts altered ciphertexts: xor-ing a 16-byte string into bytes 32..47 of a ciphertext made for a message of at least 16 bytes xors it into the first 16 bytes of the message; removing the first n 16-byte blocks after the 32-byte salt removes the first 16n bytes of the message (16n at most its length). With the same random bytes, the two parties produce the same ciphertext for each other, so it does not show who made it.",
  "every two key pairs, message, random stream, altering string and number of blocks, hash function and block cipher",
  "an attack that works for all ciphertexts is a statement about all keys and messages",
  ["ed25519_model.go:Ed25519BlockCipher.Encrypt","ed25519_model.go:Ed25519BlockCipher.Decrypt"])
p("Small-order public keys are accepted in key agreement",
  "The 32-byte strings that decode to a point of order dividing 8 are exactly those whose low 255 bits are one of seven listed values (bit 255 arbitrary). Key agreement accepts them, and the shared key is then SHA3-256 of (1, 0, ..., 0) xor salt, whatever the private key: anybody can decrypt what is sent to such a key. Adding a point of order dividing 8 to any public key changes no shared key.",
  "every 32-byte public key, private key, salt, message",
  "the list has to be complete and needs the group structure; tests use honest keys",
  ["ed25519_model.go:GetSharedKey","ed25519_model.go:Ed25519BlockCipher.Encrypt","ed25519_encode.go:scalarMultiply"])
p("Reused nonces reveal the private scalar",
  "Signing one message with one private key but two public keys (NewKeyPair accepts any 32-byte public key beside a private key) gives two signatures with the same R; the private scalar modulo q is then (S1 - S2) / (h1 - h2) modulo q, whenever the challenges differ modulo q. The same holds for any two accepted signatures with the same R under a derived key. The scalar modulo q suffices to sign every message with every nonce.",
  "every private key, pair of public keys, message, hash function; every nonce and message to forge",
  "a security consequence for all keys; needs inverses modulo the prime q and the verification equation in both directions",
  ["ed25519_model.go:Ed25519DsaSigner.Sign","key_pair.go:NewKeyPair","ed25519_model.go:Ed25519DsaSigner.Verify"])
p("Derived public keys have prime order and determine the scalar",
  "DerivePublicKey always gives a key that decodes to a point A with [n]A = 0 exactly when q divides n (never the neutral element or a key of small order), and two private keys have equal public keys exactly when their secret scalars are equal.",
  "every private key of any length, hash function",
  "needs primality of q and the order of the base point",
  ["ed25519_model.go:Ed25519KeyGenerator.DerivePublicKey","ed25519_encode.go:PrepareForScalarMultiply"])

p("Histories of calls over random sources",
  "In every history of calls of NewRandomKeyPair/NewKeyPairByEngine, NewKeyPair, Encrypt, Decrypt, Sign, Verify and the canonicity functions, with engines that have their own io.Reader or share crypto/rand's, and readers that cut their bytes anywhere and may return errors at any Read: each call takes its own stretch of its reader's bytes, the stretches follow one another without gaps or overlaps in the order of the calls, and the outcome is a function of the arguments and of that stretch alone. A successful GenerateKeyPair takes 32 bytes (the private key), a successful Encrypt len(public key)+16 (salt and IV, the beginning of the ciphertext). How an error-free reader cuts its bytes changes no result; NewKeyPairByEngine(nil) panics.",
  "every sequence of calls, arguments, readers, chunkings and read errors; every hash function and block cipher",
  "the histories and the behaviours of readers are unbounded; tests use crypto/rand and single calls",
  ["ed25519_model.go:GenerateKeyPair","ed25519_model.go:Ed25519BlockCipher.Encrypt","crypto_engine.go:CryptoEngines","cipher_model.go:NewBlockCipher","signer.go:NewSignerFromKeyPair","key_pair.go:NewKeyPairByEngine"])
p("SHA-256 and RIPEMD-160 wrappers",
  "HashesSha_256 and HashesRipemd160 never fail or panic, return 32 and 20 bytes, and compute the iterated hash of the padded message for messages of every length; the buffered object gives the same digest for every way of cutting the message into parts. SHA-256 digests can be extended: from the digest and length of a message anybody computes the digest of the message, its padding and any suffix.",
  "every message, suffix and list of parts",
  "unbounded lengths and ways of cutting; tests check a few vectors",
  ["crypto.go:HashesSha_256","crypto.go:HashesRipemd160"])

p("Goroutines that share keys, messages and signatures do not disturb each other",
  "Take any number of goroutines that share byte slices, private keys, key pairs, messages, ciphertexts and signatures, and each make any list of calls (NewPrivateKey, NewKeyPair, GenerateKeyPair, Sign, Verify, IsCanonicalSignature, MakeSignatureCanonical, Encrypt, Decrypt, NewSignature..., and Bytes/String of signatures made by Sign), and write to no slice themselves. Whatever the interleaving of their single byte accesses: no shared byte is ever written, each goroutine that has finished has exactly the results it would have alone, as a function of the byte strings it was given, and it finishes after a number of its own steps that no other goroutine can raise.",
  "every number of goroutines, every list of calls of each, every shared memory, every schedule of single memory accesses, every 64-byte hash, block cipher and growth policy of append",
  "The race detector sees only the schedules that ran; the claim is about all schedules.",
  ["ed25519_model.go:72-312", "key_pair.go:NewKeyPair", "signature.go", "signer.go", "cipher_model.go"])
p("A call writes to nothing that existed before and its result is in new memory",
  "DerivePublicKey, NewKeyPair, GenerateKeyPair, Sign, Verify, MakeSignatureCanonical, Encrypt and Decrypt have the outcome determined by the bytes their arguments show, write to no array that existed before the call, and return slices of arrays made by the call (a key pair keeps the private and public key it was given; the canonical form keeps the R slice): later writes of the caller to its own buffers change no result, also when the arguments overlap or share spare capacity.",
  "every memory, every (overlapping or not) key, message, signature and ciphertext in it, every growth policy of append",
  "Tests compare results, not which of the caller's bytes beyond a slice's length were touched, and cannot try all overlaps.",
  ["ed25519_model.go:Sign", "ed25519_model.go:Verify", "ed25519_model.go:Encrypt", "ed25519_model.go:Decrypt", "ed25519_model.go:MakeSignatureCanonical", "key_pair.go"])
p("Bytes and String of a signature decoded from shared bytes write to shared memory",
  "Bytes (hence String) of a signature writes to the memory of R exactly when R's slice has capacity for S behind it, which is so for every signature made by NewSignatureFromBytes: two goroutines that print one decoded signature race. The bytes written are those that are there, so with atomic byte accesses the results are still right. But Bytes of the canonical form of a decoded signature overwrites the second half of the caller's bytes with the reduced S: what another goroutine computes from them depends on the schedule; IsCanonicalSignature of the same signature can answer both true and false.",
  "every memory and decoded signature; every reader program; every schedule",
  "A unit test of Bytes sees the right bytes; only the interleavings and the capacity of the caller's array show the write.",
  ["signature.go:Bytes", "signature.go:NewSignatureFromBytes", "ed25519_model.go:MakeSignatureCanonical"])
p("A private key shares the buffer it was made from",
  "NewPrivateKey keeps the caller's slice as Raw and computes Value from it once. If the caller later changes a byte of the buffer, Raw changes, Value and the public key of a key pair already made stay; what that key pair then signs, it refuses itself, except when the group order divides the challenge or both byte strings have the same public key.",
  "every buffer, position and new byte; every message",
  "Tests do not modify buffers after handing them over, and the exception cannot be hit by search.",
  ["key_model.go:NewPrivateKey", "key_pair.go:NewKeyPair", "ed25519_model.go:Sign"])
p("The branches of cmov tell the secret scalars, and nothing else does",
  "Select and scalarMultiply are documented as constant time and free of secret branches. They are not: the conditions evaluated in cmov tell, for every scalar below 2^255 and every table, the scalar itself. So whoever sees which way the branches of DerivePublicKey or GetSharedKey go reads off the private scalar, and from those of Sign the nonce, which with the signature gives the private scalar modulo q and so forged signatures on every message. Apart from cmov the conditions, lengths and table rows are the same for all scalars and points; deriving, signing and computing a shared key show besides only the lengths of their arguments and bit 255 of the encoded result point.",
  "every scalar, table, key, message, public key and salt, every 64-byte hash",
  "Tests see results only; that all the information of the scalar is in the branches and none elsewhere is a claim about all scalars.",
  ["ed25519_encode.go:cmov", "ed25519_encode.go:Select", "ed25519_encode.go:scalarMultiply", "ed25519_model.go:DerivePublicKey", "ed25519_model.go:Sign", "ed25519_model.go:GetSharedKey"])
p("Decrypt is a padding oracle",
  "Whoever can have ciphertexts of the own choice decrypted and learns of each only whether Decrypt succeeded reads the message of every ciphertext that Decrypt accepts, with at most 272 such trials per byte and without any key, and makes, with at most 4352 trials per block, a ciphertext with any salt that decrypts to any message of the attacker's.",
  "every pair of key pairs, every accepted ciphertext, every message and salt, every 64-byte hash and block cipher",
  "The attack works for all keys, ciphertexts and messages; a test can run it on a few.",
  ["ed25519_model.go:Decrypt", "ed25519_model.go:decode"])
p("Text and comparison of elements",
  "The text of a field element (limbs within bounds) is the 64 hexadecimal digits of its canonical value, so texts are equal exactly for equal elements. Encoded field elements are accepted with 32 or 64 bytes only, are compared and printed by bytes, and IsNonZero and IsNegative are those of the integer (so p is non-zero, though it decodes to 0). The text of an encoded group element is the affine coordinates of the point it denotes or the text of the error; it never panics, and is the same for two encodings of one point that Equals distinguishes. The text of a group element panics if T is missing; equal texts mean equal points, and equal points may have different texts.",
  "every field element within the bounds, every byte string, every group element",
  "Injectivity and exactness range over all elements and strings.",
  ["ed25519_encode.go:Ed25519FieldElement.String", "ed25519_encode.go:Ed25519EncodedFieldElement", "ed25519_encode.go:Ed25519EncodedGroupElement.String", "ed25519_encode.go:Ed25519GroupElement.String", "ed25519_encode.go:GetAffineX"])
p("Select for every digit",
  "On an element with a table, Select(pos, b) for 0 <= pos < 32 and any int b uses b only modulo 512: if b is congruent to d with -8 <= d <= 8 it returns d * 256^pos times the point, otherwise the neutral element (9 gives neutral, 504 gives -8). It panics without a table and for other positions.",
  "every element with a table, every position and every int b",
  "b ranges over 2^64 integers; the table over all points.",
  ["ed25519_encode.go:Select", "crypto.go:isNegativeConstantTime", "crypto.go:isConstantTimeByteEq"])
p("Histories of precomputations",
  "Any sequence of PrecomputeForScalarMultiplication and PrecomputeForDoubleScalarMultiplication on a new P3 element succeeds, leaves the coordinates alone, and leaves each table present and correct exactly if it was asked for, whatever the order and number of calls; IsPrecomputedForDoubleScalarMultiplication says so. In other coordinate systems the calls panic. A copy of an element without tables claims to be precomputed, refuses to be, and cannot be multiplied.",
  "every P3 element and every finite sequence of calls",
  "The sequences are unbounded.",
  ["ed25519_encode.go:PrecomputeForScalarMultiplication", "ed25519_encode.go:PrecomputeForDoubleScalarMultiplication", "ed25519_encode.go:IsPrecomputedForDoubleScalarMultiplication", "ed25519_encode.go:copy"])
p("The BouncyCastle classes encrypt nothing",
  "Whatever calls are made on a BufferedBlockCipher, in whatever order and with whatever key and direction: GetOutputSize answers 0, doFinal writes nothing and answers 0, processBytes answers -1 if the output is shorter than length - inOff and otherwise overwrites the start of its input with its output buffer. No answer depends on the key. Also when input and output share memory: an array that is never an input of processBytes is never written to.",
  "every sequence of calls and all arguments",
  "The sequences and arguments are unbounded.",
  ["bouncycastle_crypto.go:BufferedBlockCipher", "bouncycastle_crypto.go:processBytes", "bouncycastle_crypto.go:doFinal", "bouncycastle_crypto.go:GetOutputSize"])
p("The bytes of a ciphertext",
  "Encrypt(m) to any recipient public key that decodes to a point P is the first 48 bytes of the random source (salt, iv) followed by AES-CBC under that iv of m with PKCS #7 padding, the key being SHA3-256 of the encoding of [a]P xored with the salt (a the sender's secret scalar); so any implementation of this description interoperates. Decrypt of whole blocks under a sender key that decodes returns m exactly if the CBC decryption under the agreed key is m with PKCS #7 padding, and otherwise an error that tells whether the last byte is between 1 and 16. Every other public key gives the error of its decoding, a short source an end-of-file error; a recipient pair whose public key does not have 32 bytes never decrypts anything.",
  "all keys, messages, random sources, inputs, hash functions and block ciphers",
  "Messages and inputs have every length; a unit test compares Encrypt only with Decrypt.",
  ["ed25519_model.go:Encrypt", "ed25519_model.go:Decrypt", "ed25519_model.go:encode", "ed25519_model.go:decode", "ed25519_model.go:GetSharedKey"])
p("The whole curve and the shared keys",
  "The curve has exactly 8q points: each is aB + jT for one a below q and one j below 8, T a point of order 8, and 8q times any point is neutral. So two public keys agree with a private key on the same shared keys exactly when they differ by a point of order dividing 8; the shared key is a public function of the salt exactly for the public keys of order dividing 8 (C51 has the list) and never for a derived public key; the point that is hashed is always one of the q multiples of the base point.",
  "all points, private keys, 32-byte public keys that decode, salts and hash functions",
  "The curve has about 2^255 points; the exactness is about all of them.",
  ["ed25519_model.go:GetSharedKey", "ed25519_encode.go:scalarMultiply", "ed25519_encode.go:Decode"])
p("Verify and RFC 8032",
  "Signatures made by Sign with a derived key satisfy both verification equations of RFC 8032 section 5.1.7 (with the library's hash). For a public key that the RFC decodes and S below q, Verify accepts only what the RFC's cofactored equation accepts; of that, it accepts exactly what has no error of small order (and passes its two other tests); for derived keys this is the RFC's equation without cofactor. The two differ: the owner of any key can make signatures that the cofactored verification accepts and Verify rejects; Verify accepts signatures under public keys that the RFC does not decode; it rejects the all-zero key, which the RFC decodes; on keys of mixed order it agrees with neither form in general because the hash is reduced modulo q first.",
  "all keys, messages, signatures and hash functions",
  "Equivalence of two verification procedures on all inputs; the inputs on which they differ are not found by random testing.",
  ["ed25519_model.go:Verify", "ed25519_model.go:Sign", "ed25519_encode.go:Decode", "ed25519_encode.go:doubleScalarMultiplyVariableTime"])
p("What an accepted signature binds",
  "A signature accepted by Verify for a message under a derived public key is accepted for another message exactly when the hashes of (R, public key, message) agree modulo q, and under another derived key exactly when hash times secret scalar agrees modulo q. So nothing but a collision of the hash modulo q moves a signature to another message.",
  "all pairs of keys, messages and all signatures with S at most 2^255",
  "It quantifies over all second messages and keys.",
  ["ed25519_model.go:Verify"])
p("Exactly when calls panic",
  "With every pointer possibly nil: Sign panics exactly for a nil key pair and for a key pair with a private and no public key. Verify panics exactly for a nil signature and, for a signature whose S passes the canonicity test, for a missing key pair or public key, or for an S shorter than 32 bytes under a public key that decodes; a signature that fails the test is rejected even without any key. NewKeyPair panics exactly without any key, GenerateKeyPair never; making a block cipher panics exactly without the recipient's public key; Encrypt panics exactly when the salt can be read and the sender is missing, or has no private key while the recipient's key decodes; Decrypt exactly on inputs of at least 64 bytes under listed conditions on the keys or when the input is not made of whole blocks; GetSharedKey without public key, and, if that key decodes, without private key or with too short a salt; DerivePublicKey, HasPrivateKey, IsCanonicalSignature and MakeSignatureCanonical exactly on nil. On values made by the library's constructors Sign and Verify never panic, nor does Encrypt when both parties have private keys.",
  "all key pairs, signatures, messages, ciphertexts and random sources, with nil in place of any pointer",
  "Absence of panics, and the order in which pointers are followed, is about all combinations of values and nil pointers.",
  ["ed25519_model.go:Sign", "ed25519_model.go:Verify", "ed25519_model.go:Encrypt", "ed25519_model.go:Decrypt", "key_pair.go:NewKeyPair", "ed25519_model.go:NewEd25519BlockCipher"])
p("Any io.Reader as random source",
  "For every io.Reader, however it portions its bytes, whatever it remembers and whenever it fails or returns nothing: GenerateKeyPair returns exactly when the reader delivers 32 bytes (they are the private key) or fails before that (the error is passed on: io.EOF without any byte, io.ErrUnexpectedEOF after some); it waits for ever exactly when the reader neither delivers nor fails. Encrypt wants a salt of the length of the recipient's public key, agrees on a key, and then wants 16 bytes; its result is that of Encrypt on these bytes. No more bytes are ever asked for than are missing; an error that comes with the last byte is dropped; readers that make progress are read at most once per byte.",
  "all readers (any state, any answers within the io.Reader contract), key pairs, plaintexts and hash functions",
  "A reader is an arbitrary interactive process; termination is about infinite behaviours.",
  ["ed25519_model.go:GenerateKeyPair", "ed25519_model.go:Encrypt", "ed25519_model.go:NewEd25519KeyGenerator"])
p("After a recovered panic of a precomputation",
  "The precomputations store their tables in the element while they fill them. On P3 elements they never panic. On every other element the first precomputation of each kind panics and leaves a table with a single entry; every later one returns at once, and IsPrecomputedForDoubleScalarMultiplication says true. A caller that recovers from the panic of an element in P2 coordinates then gets from Select the neutral element at every position but 0, whatever the digit, without an error; scalar multiplication gives (d0 + 16 d1) P for scalars that are d0 + 16 d1 modulo 256 with digits in -1, 0, 1, and an error for the others; double scalar multiplication is right or panics. So the documented results of Select and scalar multiplication do not survive a recovered panic.",
  "all elements, all sequences of precomputations with recovered panics, all positions, digits and scalars",
  "Histories with crash points; the wrong results appear only after a panic and only for some arguments.",
  ["ed25519_encode.go:PrecomputeForScalarMultiplication", "ed25519_encode.go:PrecomputeForDoubleScalarMultiplication", "ed25519_encode.go:Select", "ed25519_encode.go:scalarMultiply", "ed25519_encode.go:doubleScalarMultiplyVariableTime"])
p("Which strings are accepted as public keys",
  "Of all 32-byte strings, Decode accepts exactly the encodings of the 8q curve points and 26 further strings (listed: y + p for the twelve y below 19 on the curve, with either sign bit, and y = 1, y = -1 with sign bit 1), none of which is an encoding of a point. The strings for one point are its encoding, the one with y + p if y < 19, and those with the other sign bit if x = 0; so a derived public key has no second string unless its y is below 19, and then exactly one.",
  "all 32-byte strings, all curve points, all private keys",
  "the accepted set has about 2^255 members, and its exceptions are 26 strings that random tests never hit",
  ["ed25519_encode.go: Ed25519EncodedGroupElement.Decode, GetAffineX, GetAffineY", "ed25519_model.go: Verify, GetSharedKey"])
p("What the blocks of ciphertexts tell about messages",
  "For ciphertexts between two parties with the same salt (in particular within one ciphertext), two 16-byte blocks are equal exactly when the xor of the two message blocks equals the xor of the ciphertext blocks before them, so every repeated block gives away the xor of two message blocks. If the random bytes repeat, two ciphertexts agree in their first n blocks exactly as the messages do, and entirely exactly for equal messages. In whatever Decrypt accepts, a block of the message depends only on its ciphertext block and the one before, wherever the two are moved.",
  "all keys, messages of all lengths, random bytes, block positions and accepted ciphertexts",
  "equality of ciphertext blocks for all messages and positions; tests use random bytes, for which blocks never repeat",
  ["ed25519_model.go: Encrypt, Decrypt, encode, decode", "cipher_model.go"])
p("Goroutines that share random sources",
  "Any number of goroutines make lists of calls whose random bytes come from readers they share (crypto/rand.Reader, or seeds of their own engines), Reads of different goroutines interleaving in any order. Every call that returns has the outcome it has alone with a reader that answers as the call's own Reads were answered: a value made from exactly the bytes it needs, or the reader's error. If a reader hands out each byte once, no byte is used by two calls and none is lost. If every Read gives a byte or an error, every goroutine finishes after one turn per byte and three per call, whatever the others do; a goroutine whose readers no other uses is not influenced at all.",
  "all numbers of goroutines, lists of calls, readers (any state, portions, errors, also depending on each other) and schedules",
  "all interleavings of Reads of any number of goroutines; a test sees the few schedules the run-time picks",
  ["ed25519_model.go: GenerateKeyPair, Encrypt, NewEd25519KeyGenerator, NewEd25519BlockCipher", "crypto_engine.go: CryptoEngines", "key_pair.go: NewRandomKeyPair"])
p("Programs over group elements behave as programs over curve points",
  "Take any program, however long, that starts from the constants and from decoded strings and calls the methods of group elements (conversions, Add, Subtract, the two precomputed forms, Negate, dbl, copy, Select, both multiplications, both precomputations, Equals, Encode, SatisfiesCurveEquation, IsPrecomputedForDoubleScalarMultiplication) on elements that earlier calls returned, with any arguments. Everything it sees (booleans, encodings, errors, panics) is what the same program sees when an element is only a coordinate system, a point of the curve and the state of two tables. In particular the limbs, the projective coordinates and the table entries are never visible, rounding or overflow never builds up, and of a decoded string a program sees only the point it denotes. A panic ends the program whatever follows; without one every call gets an answer.",
  "all finite programs of calls with arbitrary arguments, by simulation of one machine by the other",
  "programs of any length; errors could accumulate over many operations, or two representations of one point be told apart, only in combinations no test tries",
  ["ed25519_encode.go:Ed25519GroupElement", "ed25519_encode.go:ed25519Group.BASE_POINT", "ed25519_encode.go:Ed25519EncodedGroupElement.Decode"])
p("The signatures accepted under a derived key",
  "For a public key derived from a private key with secret scalar a and any message, Verify accepts a signature (R, S) with S below q exactly when there is a nonce r below q with R the canonical encoding of rB and S = (r + h a) mod q, h the hash of R, the key and the message, and S passes the low-64-bit test. Every nonce gives one such signature and different nonces different ones, so many signatures of one message are accepted, and Verify cannot tell the one Sign returns. For every other S the same holds modulo q for the number the verifier makes of it (S itself up to 2^255, S or S - 2^256 above). R is always the canonical encoding of a point of the subgroup of order q; torsion points and other encodings are rejected.",
  "every private key, message, nonce and 64-byte string",
  "2^512 signatures per message; no test can show that no other string is accepted",
  [EM+":Ed25519DsaSigner.Verify", EM+":Ed25519DsaSigner.Sign", EM+":Ed25519KeyGenerator.DerivePublicKey"])
p("Expressions over field elements",
  "Build field elements by calls of any nesting and number from the constants, decoded strings of at least 32 bytes and limbs within 1.01*2^25, 1.01*2^24: add, subtract, negate, multiply, square, squareAndDouble, invert and the square root of a fraction. If every operand of a product, square, inverse or root is a sum or difference of at most three elements that are themselves products, squares, inverses, roots, constants or decoded strings, and what is looked at of at most nine, then Encode gives the canonical bytes of the value modulo p, IsNegative its lowest bit, and Equals and IsNonZero decide equality: rounding and overflow never show, and two expressions with the same value cannot be told apart. Without that discipline it fails: doubling One sixty-four times with add gives an element that counts as zero.",
  "all expressions (no bound on size or depth), all constants, strings and limbs",
  "expressions of any size; limb overflow shows up only for rare values in particular nestings",
  [EE+":Ed25519FieldElement", EE+":Ed25519EncodedFieldElement.Decode", EE+":Ed25519FieldElementSqrt", EE+":Ed25519Field"])
p("Conversions of MathUtils",
  "BytesToBigInteger gives the little endian value of a byte string of any length, IntsToBigInteger the integer of ten limbs without any bound, FieldToBigInteger the representative below p. ToByteArray, ToEncodedFieldElement and ToFieldElement panic exactly from 2^256 on; below, also for negative numbers, the bytes are those of the absolute value, and a field element takes its low 255 bits. Conversions there and back return the same bytes, integers below 2^256, and field elements (for integers below 2^255); for integers from 2^255 on and for negative ones the field element is not the integer modulo p (shown). The reference square root equals that of the field elements. GetAffineXFromAffineY returns 0 for y = 0, 1, -1 modulo p and an error for every other integer. GetRandomByteArray and GetRandomInt64 return the next bytes of the source, or panic.",
  "all integers, byte strings, limb vectors and random sources",
  "exactness over all integers, and the absence of any other accepted y coordinate, is a statement about the whole field",
  ["math.go:BytesToBigInteger", "math.go:IntsToBigInteger", "math.go:FieldToBigInteger", "math.go:ToByteArray", "math.go:ToEncodedFieldElement", "math.go:ToFieldElement", "math.go:getSqrtOfFraction", "math.go:GetAffineXFromAffineY", "math.go:GetRandomByteArray", "math.go:GetRandomInt64"])
p("Goroutines that use one group element at the same time",
  "Goroutines call PrecomputeForScalarMultiplication, PrecomputeForDoubleScalarMultiplication, IsPrecomputedForDoubleScalarMultiplication, Select and scalarMultiply on one element, in any number and any schedule of their loads and stores. At no moment does a table hold a wrong entry; a Select gives the right multiple, the neutral element, the error for nil, or panics. When no PrecomputeForScalarMultiplication is running and one has returned (or a table exists), the table is complete, stays, and every Select and scalarMultiply started later is right; for the double table the same provided no call of its precomputation panicked. One single precomputation alone, or any number of double ones alone, never panic. But two single precomputations at once can panic; one of each kind can panic and leave a double table of eight nil entries for ever, reported as precomputed; and that one precomputation has returned does not make later Selects right while another is running (all shown). Every call ends after at most 1000 steps of its own; IsPrecomputedForDoubleScalarMultiplication says whether there was a table at one moment between its start and its end.",
  "all elements representing a point, all histories of starts and steps of calls, all positions, digits and scalars",
  "the wrong outcomes need schedules in which one goroutine is stopped between two particular loads; tests see one schedule per run",
  [EE+":PrecomputeForScalarMultiplication",EE+":PrecomputeForDoubleScalarMultiplication",EE+":IsPrecomputedForDoubleScalarMultiplication",EE+":Select",EE+":scalarMultiply",EE+":copy"])
p("Group elements made by hand",
  "NewEd25519GroupElement takes any number as coordinate system and any pointers as coordinates. On every such element: which conversions, encodings, curve tests, additions, subtractions, negations, texts and comparisons panic is known exactly (the system is not one the call accepts, or a coordinate it uses is nil), precomputedAdd and negate report a wrong system as an error instead, everything else returns; Encode then has 32 bytes. Equals of elements in different systems never panics; in one system it panics exactly when its short-circuiting comparison reaches a nil coordinate, or the system is AFFINE or unknown. On elements with X, Y and Z in a known system the calls behave as the properties about group elements say.",
  "all group elements: any int as coordinate system, any coordinates or nil",
  "Tests try a few malformed elements; that these are the only panics, for every combination of nil coordinates, numbers and values, is a claim about all of them.",
  [EE+":NewEd25519GroupElement", EE+":toCoordinateSystem", EE+":Equals", EE+":Encode", EE+":SatisfiesCurveEquation", EE+":dbl", EE+":precomputedAdd", EE+":precomputedSubtract", EE+":add", EE+":subtract", EE+":negate", EE+":String"])
p("What is printed",
  "Equals writes to the standard output exactly when the systems differ and the argument cannot be converted to the receiver's (elements without nil coordinates): one text without newline, naming the argument's system and both numbers; it then returns false. Verify writes exactly when the signature passes the canonical test and the public key is not 32 zeros but is no point: one line, \"Invalid 2^8 bit representation.\" when it has not 32 or 64 bytes, \"not a valid Ed25519EncodedGroupElement.\" otherwise; it then returns false. A rejected signature under a valid key prints nothing, and neither call's answer depends on the printing.",
  "all elements; all key pairs, messages, signatures and 64-byte hash functions",
  "A test sees the output of a few calls; that nothing else is ever printed, and these lines for every bad key, is about all inputs.",
  [EE+":Equals", EM+":Verify"])
p("Random sources that break the contract of io.Reader",
  "Any object may be passed as the seed: its Read may report any number of bytes, negative or too large, whatever it stored, may panic, and may keep the slices it was handed and write to them in later Reads. GenerateKeyPair then returns exactly if the object claims 32 bytes (the private key is what is in the buffer; bytes it did not store are zero) or reports an error before, and panics exactly if the object panics or the reported numbers add up, as an int, to less than nothing without an error. Any key pair returned has a 32-byte private key and the public key belonging to it. Any message returned by Encrypt can be read by the recipient provided the object does not write to the salt's buffer after delivering it; otherwise that can fail. With readers that keep the contract, all is as for those (C71).",
  "all objects with a Read method and all their states; all key pairs, messages, hash functions and ciphers meeting the contracts",
  "A test passes a few readers; that no reader whatsoever makes the library return an ill-matched key pair or an unreadable message is about all of them.",
  [EM+":GenerateKeyPair", EM+":Encrypt"])
p("The SHA-3 functions are those of FIPS 202",
 "For every message (any number of parts of any lengths) HashesSha3_512 succeeds and returns SHA3-512 of the concatenated parts as FIPS 202 defines it on bit strings (Keccak-p[1600,24] by its step mappings with computed rotation offsets and round constants, sponge, pad10*1, suffix 01); HashesSha3_256 returns SHA3-256 and HashesKeccak_256 the original Keccak-256 without suffix. The digests used in key derivation, signing, verification and key agreement are therefore the standard's.",
 "all messages of all lengths and all ways of splitting them into parts",
 "Published vectors exercise a few messages; the equality with the standard concerns every message, block boundary and state of the permutation.",
 ["crypto.go:HashesSha3_512","crypto.go:HashesSha3_256","crypto.go:HashesKeccak_256"])
p("The block cipher is AES-256 as FIPS 197 defines it",
 "For every 32-byte key and every 16-byte block the block function that Encrypt and Decrypt chain is the cipher of FIPS 197: S-box from inversion in GF(2^8) and the affine map, ShiftRows, MixColumns, AddRoundKey with the standard's key expansion, 14 rounds; the block decryption returns the one block that the cipher maps to its input.",
 "all 32-byte keys and all 16-byte blocks",
 "The standard's vectors are a handful of blocks under a handful of keys.",
 [EM+":encode", EM+":decode"])
p("HashesSha_256 is SHA-256 as FIPS 180-4 defines it",
 "For every message of less than 2^64 bits HashesSha_256 returns 32 bytes without error or panic, and their bits are the one bit string that FIPS 180-4 accepts as the message's digest: padding, 512-bit blocks, message schedule, 64 turns per block, with the constants defined as the fractional bits of cube and square roots of the first primes.",
 "all byte strings of less than 2^61 bytes, and all candidate digests",
 "The standard's vectors are a handful of messages; padding boundaries and the bits of every word need every length and content.",
 ["crypto.go:HashesSha_256"])
p("HashesRipemd160 is RIPEMD-160 as its authors define it",
 "For every message of less than 2^64 bits HashesRipemd160 returns, without error or panic, the one byte string that the RIPEMD-160 specification accepts as its hash value: padding, little-endian words, the word orders from the permutations rho and pi, the shifts, the constants from roots of 2, 3, 5 and 7, and two lines of 80 steps.",
 "all byte strings of less than 2^61 bytes, and all candidate hash values",
 "The published vectors are nine messages; a wrong table entry or padding boundary may show on others only.",
 ["crypto.go:HashesRipemd160"])
p("Keys, signatures and encrypted messages are those any implementation of the standards computes",
 "With the library's own hash functions and block cipher: the public key of a private key, the signature of a message and the encrypted message for a salt and an iv are the ones described by SHA-3 (FIPS 202), AES-256 (FIPS 197), CBC, PKCS #7 and the curve's encoding alone, and the description has no other solution. Verify accepts signatures made by other implementations of the description (but for those whose S has 0 or the group order's lowest 64 bits there), Decrypt opens their messages and returns a message exactly if the input is its encryption, and what the library sends is for the recipient's implementation a message from the sender's public key.",
 "all private keys (any bytes), public keys, messages, salts, ivs, signatures and inputs",
 "Exchanging samples with another implementation covers a few keys; a deviation from a standard for some key or length shows only there.",
 [EM+":Ed25519DsaSigner.Sign", EM+":Ed25519DsaSigner.Verify", EM+":DerivePublicKey", EM+":Ed25519BlockCipher.Encrypt", EM+":Ed25519BlockCipher.Decrypt"])
p("Goroutines that use one group element without synchronisation, on any memory",
  "As C80, but loads and stores of different goroutines (and of one) need not be seen in one order: every load may give nil or whatever was ever stored at that place, and a load of a slice may mix two stores. Then still no wrong entry can be read; a Select gives the right multiple, the neutral element, the error for nil, or panics; scalarMultiply fails likewise or gives the multiple by a sub-selection of the 64 signed digits of the scalar, and nothing else can come in; the precomputations return or panic; no call does more than 1000 steps and none is stuck; when IsPrecomputedForDoubleScalarMultiplication says true a table was stored. doubleScalarMultiplyVariableTime on such elements gives the right point or panics, and can panic unless both scalars are zero. That the only precomputation has returned is not enough for an unsynchronised goroutine: its scalarMultiply can return the neutral element for every scalar, without an error. All behaviours of C80 are among these.",
  "All coordinates of points, all numbers of goroutines and calls, all schedules, all choices of the values that loads give, all scalars.",
  "The Go memory model allows more than a test machine shows; no run of a test covers the values that loads may give.",
  [EE+":PrecomputeForScalarMultiplication",EE+":PrecomputeForDoubleScalarMultiplication",EE+":IsPrecomputedForDoubleScalarMultiplication",EE+":Select",EE+":scalarMultiply",EE+":copy"])
# Properties whose naive form is false of the code are stated as what the code does, exactly.
OVR={
"C05":("Malleability: the accepted S are exactly a class modulo q",
 "If Verify accepts (R, S) then it accepts (R, S') for the same key and message, S, S' at most 2^255, exactly when S' is congruent to S modulo the group order q and passes the low-64-bit test. Hence S is unique among numbers below q, but signatures are malleable: S + q is accepted along with nearly every honest S."),
"C06":("IsCanonicalSignature inspects only the low 64 bits of S",
 "IsCanonicalSignature returns true exactly when the low 64 bits of S (little endian) are neither 0 nor the low 64 bits of q. It therefore rejects S = 0 and S = q, but accepts some S above q and rejects some S with 0 < S < q (both shown)."),
"C07":("MakeSignatureCanonical reduces S modulo q and changes nothing else",
 "MakeSignatureCanonical keeps R, replaces S by S mod q in 32 bytes, never fails on a 32-byte R (and fails otherwise), is idempotent; the result verifies whenever the input verifies with S at most 2^255 and the reduced S passes the canonicity test. For S above 2^255 that last part does not hold: an accepted signature can become a rejected one (shown)."),
"C09":("Public keys of lengths other than 32 and 64 are rejected by Verify",
 "Verify returns false whenever the public key is neither 32 nor 64 bytes long; a 64-byte key is not rejected: the point is read from its first 32 bytes, while the hash covers all 64 (a verifying example is shown)."),
"C10":("Degenerate public keys",
 "Verify returns false for the all-zero public key for every message and signature. The neutral element (0100..00) is not rejected: for every s passing the low-64-bit test it accepts (enc([s]B), s) for every message, though nobody signed."),
"C24":("Equals on group elements",
 "For operands that can be brought to the first operand's coordinate system (P2, P3, P1xP1, CACHED as detailed in the theorems) Equals returns true iff both denote the same point. Equals is not symmetric: P3.Equals(P2) is false even for equal points while P2.Equals(P3) is true. An AFFINE receiver gives false, or panics if both are AFFINE."),
"C27":("Scalar multiplication needs a precomputed table",
 "scalarMultiply works on elements whose table was precomputed; contrary to its documentation it does not compute the table on demand: without a table it panics for every scalar of at least 32 bytes."),
"C34":("When Decrypt panics on malformed input",
 "For 32-byte sender keys and a recipient pair with a private key, Decrypt returns a message or an error for every input shorter than 64 bytes or of a length that is a multiple of 16, and panics on every other input (64 bytes or more, not a multiple of 16) whenever the sender's public key decodes."),
"C36":("Encrypting or decrypting without the needed private key panics",
 "Encrypt with a sender pair without private key, and Decrypt with a recipient pair without private key, never return a message: they return an error if an earlier step fails, and panic otherwise (there is no check for the missing key, unlike Sign)."),
"C38":("Private keys and big integers",
 "NewPrivateKeyFromBigInt applied to the big-endian integer of a 32-byte private key gives the same private key exactly when the first byte of the key is not zero; otherwise it gives a shorter key (the leading zero bytes are lost)."),
"C40":("Signatures built from big integers",
 "NewSignatureFromBigInt(r, s) succeeds exactly when both pointers are non-nil and the low 64 bits of |r| and of |s| are at most 2^31-1; the resulting GetR and GetS are |r| and |s| modulo 2^256. Hence values survive for 0 <= r, s <= 2^31-1, -5 and 2^256 are accepted and altered, and almost no real signature (253-bit values) can be rebuilt this way."),
"C41":("Signature.Bytes and shared memory",
 "Bytes() and String() always show R followed by S. Bytes() leaves every existing slice as it was exactly when R has no spare capacity for S (as for signatures returned by Sign, which share nothing with older memory) or S is already stored behind R (as for NewSignatureFromBytes, whose Bytes() returns the argument itself); otherwise it writes S over the bytes behind R. So in every history of calls in which R slices with spare capacity are paired only with the S behind them nothing a program has seen changes; but decoding a signature, making it canonical and asking the canonical one for its bytes replaces the S of the first signature in the caller's buffer (shown)."),
"C43":("NewKeyPair",
 "NewKeyPair(priv, nil) derives the public key; NewKeyPair(priv, pub) accepts exactly 32-byte pub and keeps both as given, whether or not they belong together (a mismatching pair is accepted, shown; its signatures verify under pub exactly when pub decodes to a point A with [h]A = [h][a]B)."),
"C45":("Reference arithmetic in MathUtils: where it agrees with the group, and where not",
 "MathUtils.AddGroupElements(g1, g2) returns the sum of the represented points if the affine x of g1 is 0, or the affine x of g1 and the affine y of g2 are both at least 2^64; adding the neutral element on the right to a point with x >= 2^192 and y >= 2^128 returns an element with both coordinates y, which is on no curve point (the two internal calls share the digits of a big.Int). DoubleGroupElement, ScalarMultiplyGroupElement and doubleScalarMultiplyGroupElements are right when all additions they make satisfy that condition; NegateGroupElement, ReduceModGroupOrder and multiplyAndAddModGroupOrder are always right and agree with the optimised code; other coordinate systems panic."),
"C46":("MathUtils.ToGroupElement does not decode points",
 "Of all 32-byte strings, MathUtils.ToGroupElement decodes only those with y = 1 or y = -1; for every other string it returns an error or an element that represents no curve point, and it returns an error for the encoding of every point with x and y not 0 (the base point for instance). Exactly: among strings of 32 bytes and more it accepts those with y = 0, 1 or -1 modulo p (x is then 0), panics if these have y of 2^256 or more, and returns an error for all others. It clears the top bit of its argument's byte 31 and panics on fewer than 32 bytes."),
"C47":("MathUtils.ToRepresentation preserves points except for PRECOMPUTED sources",
 "ToRepresentation(g, c) denotes the same point as g for P2, P3, P1xP1, CACHED and AFFINE sources and all target systems; for a PRECOMPUTED source it panics if x or y is 0 and otherwise never returns the same point; a P1xP1 source without T is an error."),
"C49":("Sharing between group elements and the base point",
 "No sequence of calls of the library's element operations (BASE_POINT, copy, toCoordinateSystem, Select, both precomputations, scalarMultiply, doubleScalarMultiplyVariableTime, add, subtract, precomputedAdd, precomputedSubtract, dbl, negate, Decode) changes what later BASE_POINT() calls return, nor the coordinates or tables of any element the program has; the results are those of the same operations without sharing. But elements share coordinate pointers: a program that writes to a coordinate of BASE_POINT() or of an element returned by Select on it changes every later BASE_POINT() (shown for every coordinate, table position and value). Such a write changes exactly the coordinate written to, in every element that shares it, and nothing else; the results of the arithmetic and of Decode share nothing with older elements: writing to them leaves every older element and its tables as they were."),
"C48":("GetRandomFieldElement ignores its random source",
 "GetRandomFieldElement returns one and the same element, all ten limbs 2^24, whatever the random stream delivers (so the repository's field tests exercise one value), and panics if fewer than 20 bytes are available. GetRandomEncodedFieldElement(n) returns the bytes read with bit 7 of byte 31 cleared for n = 32, 64 and panics otherwise; GetRandomGroupElement and GetRandomEncodedGroupElement return the first 32-byte block that decodes (and its canonical encoding), and panic, never returning an error, if none of the whole blocks among the first 10^8 decodes."),
}
for x in P:
    if x["id"] in OVR: x["title"],x["statement"]=OVR[x["id"]]
json_lines="\n".join(json.dumps(x,ensure_ascii=False) for x in P)+"\n"
open("/verif/properties.jsonl","w").write(json_lines)
print(len(P))
