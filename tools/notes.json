{
 "C01": {
  "note": "every hash function with 64-byte output, every private key length C01_library instantiates it with SHA3-512."
 },
 "C02": {
  "note": ""
 },
 "C03": {
  "note": ""
 },
 "C04": {
  "note": "C04_every_signature: every S of 32 bytes or more, with the integer double_scalar the verifier uses for it (S itself up to 2^255)"
 },
 "C05": {
  "note": "exact class of accepted S, also above 2^255 (C05_accepted_every); malleability shown for every honest signature but a 2^-64 fraction"
 },
 "C06": {
  "note": "exact characterisation; the textbook range test is shown to differ in both directions"
 },
 "C07": {
  "note": "includes the counterexample above 2^255"
 },
 "C08": {
  "note": "includes the exact panic case for short S"
 },
 "C09": {
  "note": ""
 },
 "C10": {
  "note": ""
 },
 "C11": {
  "note": ""
 },
 "C12": {
  "note": "clamping given bit by bit"
 },
 "C13": {
  "note": "every limb vector within the stated bounds; int64 wrap-around shown absent"
 },
 "C14": {
  "note": "including invert(0)=0"
 },
 "C15": {
  "note": "true for bounded limbs, refuted for the arbitrary int64 limbs the exported constructor accepts"
 },
 "C16": {
  "note": ""
 },
 "C17": {
  "note": ""
 },
 "C18": {
  "note": ""
 },
 "C19": {
  "note": ""
 },
 "C20": {
  "note": "complete addition law, no exceptional cases"
 },
 "C21": {
  "note": "includes primality of p and q (Pocklington certificates)"
 },
 "C22": {
  "note": ""
 },
 "C23": {
  "note": "exact characterisation; that non-canonical strings are rejected is refuted"
 },
 "C24": {
  "note": "holds for the nine convertible pairs; symmetry refuted"
 },
 "C25": {
  "note": ""
 },
 "C26": {
  "note": "C26_every_scalar: all scalars of 32 bytes or more; the result is [a]P exactly below 9*16^63 - 8*(16^63-1)/15"
 },
 "C27": {
  "note": "the documented property is false of the code: refuted, and the panic proved for every element"
 },
 "C28": {
  "note": "C28_every_scalar: all scalars; the multiplier is the value of the first 256 digits of the width-5 NAF"
 },
 "C29": {
  "note": ""
 },
 "C30": {
  "note": ""
 },
 "C31": {
  "note": ""
 },
 "C32": {
  "note": "also the sender reading its own message C32_aes proves the hypothesis cipher_ok for AES-256; C32_library is the statement for SHA3-512, SHA3-256 and AES-256 with no hypothesis on the algorithms left."
 },
 "C33": {
  "note": ""
 },
 "C34": {
  "note": "exact panic set"
 },
 "C35": {
  "note": "Decrypt accepts exactly what Encrypt produces"
 },
 "C36": {
  "note": ""
 },
 "C37": {
  "note": "exact texts; exact acceptance set for every string"
 },
 "C38": {
  "note": ""
 },
 "C39": {
  "note": ""
 },
 "C40": {
  "note": ""
 },
 "C42": {
  "note": ""
 },
 "C43": {
  "note": ""
 },
 "C44": {
  "status": "proved",
  "note": "The incremental sponge object of x/crypto/sha3 (buffer, partial writes, padding) is modelled and shown equal to the one-shot sponge of the concatenation for every list of parts, permutation, rate; the concrete Keccak-f is checked against published digests (ModelTests). SHA-256 and RIPEMD-160: C55."
 },
 "C41": {
  "note": "heap model with slices, capacities and append; exact characterisation; the canonical trap refutes the naive claim"
 },
 "C49": {
  "note": "object model with shared coordinate pointers; all histories of library calls; leaks through outside writes shown, and their exact extent"
 },
 "C50": {
  "note": "exact bit-flipping statement; no integrity, shown for every message"
 },
 "C51": {
  "note": "complete list of small-order encodings proved from the curve equation"
 },
 "C52": {
  "note": "key recovery and forgery as theorems about the model's Sign and Verify"
 },
 "C53": {
  "note": "uses primality of q and the proved order of the base point"
 },
 "C54": {
  "note": "histories by induction; readers with chunks and errors; io.ReadFull is a contract"
 },
 "C55": {
  "note": "the compression functions are checked against published digests in MdModel; the theorems hold for them and, for the buffering, for every block function"
 },
 "C56": {
  "note": "programs of single byte accesses, arbitrary schedules; goroutines hand nothing to each other; field and group elements are values"
 },
 "C57": {
  "note": "refinement of the byte-string model by programs on memory, per call"
 },
 "C58": {
  "note": "the code's behaviour, exactly: a data race in Go's memory model; results under atomic byte accesses"
 },
 "C59": {
  "note": "uses the primality of q for the exception"
 },
 "C60": {
  "note": "about conditions, lengths and table rows, not about time or caches; the documented claim is false of the code"
 },
 "C61": {
  "note": "the attacker is an explicit tree of questions (PadSpec); what the code does not protect against"
 },
 "C62": {
  "note": "strings as lists of byte codes; the code's behaviour, exactly"
 },
 "C63": {
  "note": "with the wrap-around of int; the model of C26 is shown to be the same function"
 },
 "C64": {
  "note": "sequences of calls on one element; tables not nil-poisoned by a recovered panic"
 },
 "C65": {
  "note": "placeholders in the code; stated as what they do"
 },
 "C66": {
  "note": "specification of CBC and PKCS #7 independent of the model"
 },
 "C67": {
  "note": "counting argument: a point is determined by y and a bit, so there are at most 2p < 16q points"
 },
 "C68": {
  "note": "specification RfcSpec.v written from RFC 8032, not from the library; SHA-512 is replaced by the hash parameter"
 },
 "C69": {
  "note": ""
 },
 "C70": {
  "note": "pointers are options; the receivers (signer, block cipher) come from their constructors"
 },
 "C71": {
  "note": "io.ReadFull as in the Go standard library; a Read returning more bytes than asked for breaks the contract and is excluded"
 },
 "C72": {
  "note": "the code's behaviour, exactly; scalarMultiply and the double multiplication are not exported, Select is"
 },
 "C73": {
  "note": "Decode of every 32-byte string: the exact list of accepted non-encodings, their number, and all strings of each point and of each derived key."
 },
 "C74": {
  "note": "CBC blocks: exact characterisation of equal ciphertext blocks, of ciphertexts with repeated randomness, and of moved blocks under Decrypt."
 },
 "C75": {
  "note": "Reads are atomic and the unit of interleaving; memory effects between Reads are the subject of C56. Readers obey the io.Reader contract (at most as many bytes as asked for)."
 },
 "C76": {
  "note": "Full: refinement, by a simulation of the machine over limbs and tables by a machine over curve points; the example program exercises errors, copies without tables and a panic."
 },
 "C77": {
  "note": "The hash is a parameter. Exact characterisation of the accepted signatures under derived keys, from the exactness of Verify (C04) and the order of B."
 },
 "C78": {
  "note": "The discipline (three summands for products, nine for what is looked at) covers every use in the library's group operations. Its necessity is shown by the refuted version."
 },
 "C79": {
  "note": "The contract of go-xpx-utils for BigIntToByteArray (absolute value, 32 bytes) is as in DESIGN."
 },
 "C80": {
  "note": "Loads and stores are indivisible and seen in one order by all goroutines (the Go memory model promises this only without data races). Coordinates of the element are never written."
 },
 "C81": {
  "note": "Table-free methods on elements with any coordinate system number and nil coordinates, with panic values; agreement with GroupModel."
 },
 "C82": {
  "note": "The bytes written by fmt.Printf in Equals and fmt.Println in Verify."
 },
 "C83": {
  "note": "C83_reads_always_refuted: a reader that keeps the salt's slice and changes it in a later Read makes Encrypt return a message that cannot be read; C83_recipient_reads has the condition under which this cannot happen."
 },
 "C84": {
  "note": "the bit-level definitions of FIPS 202 written out independently; lanes and bytes of the model related to them by a simulation"
 },
 "C85": {
  "note": "FIPS 197 written with polynomials over GF(2), without tables, and a key schedule given by its recurrence; crypto/aes itself is a contract"
 },
 "C86": {
  "note": "is_SHA256 is a relation written from the standard, on bit strings, constants by description; existence and uniqueness are both proved."
 },
 "C87": {
  "note": "is_RIPEMD160 is a relation written from the paper: word orders by rho and pi, shifts by message word, constants by description; existence and uniqueness are both proved."
 },
 "C88": {
  "note": "Standards-only description (StdSpec, no model functions) of keys, signatures and messages; the library's outputs are its unique solutions, Verify/Decrypt accept others' (exact), both directions."
 },
 "C89": {
  "note": "A load gives nil or any value stored there at any time; a slice whose words come from two stores acts like nil, like one of the tables, or panics. What a stored element pointer points to is seen complete (the coordinates are never stored to after the pointer is). The memory is weaker than the one of the Go memory model: the failures shown are those of unsynchronised goroutines, and the positive claims hold on every memory."
 }
}
