{"id": "C01", "title": "sm3.Sum computes the SM3 standard digest", "statement": "For every non-empty byte string shorter than 2^31 bytes, sm3.Sum(data) returns without panicking, and the 32 bytes returned are the digest the SM3 standard (GM/T 0004-2012: padding with 0x80, zeros and a 64-bit big-endian bit length; message expansion; 64-round compression; IV) assigns to data.", "quantifier": "every non-empty byte string of length < 2^31", "why_tests_cant": "the input space is unbounded and the padding/buffering has boundary cases at every residue mod 4 and mod 64; the repository tests two messages", "anchors": ["sm3/sm3.go: Sum, Reset, Write, finish, checkSum, processBlock, processWord, processLength, p0, p1, ff0, ff1, gg0, gg1, gT"]}
{"id": "C02", "title": "Streaming writes equal the one-shot digest", "statement": "For every sequence of non-empty chunks (each shorter than 2^31 bytes, total shorter than 2^61 bytes), New() followed by Write of each chunk in order and one Sum(nil) yields the SM3 digest of the concatenation, and every Write reports n = len(p) and a nil error. In particular the result depends only on the concatenation, not on where the chunk boundaries fall.", "quantifier": "every list of non-empty chunks, any number and any boundaries", "why_tests_cant": "the number of ways to split a message is exponential and each leaves a different (word buffer, block buffer) state", "anchors": ["sm3/sm3.go: New, Write, Sum, processWord, processLength"]}
{"id": "C03", "title": "Reset forgets all history", "statement": "After Reset, a digest behaves exactly like a freshly created one, whatever writes, sums and resets happened before: for any history and any later sequence of operations all observable outputs coincide with those from New().", "quantifier": "every history of Write/Sum/Reset calls and every continuation", "why_tests_cant": "histories are unbounded; stale words in internal buffers could surface only for particular lengths", "anchors": ["sm3/sm3.go: Reset, New"]}
{"id": "C04", "title": "Sum finalises the digest in place (hash.Hash contract is violated)", "statement": "Go's hash.Hash requires that Sum does not change the underlying state. Here Sum(b) returns b followed by the digest of everything written since Reset exactly when it is the first Sum after Reset (or New); it then leaves the object in the finalised state, so the contract fails: there are histories on which a second Sum, with no intervening call, returns a different digest, and the second result is exactly one more compression of the first digest over a padding block whose length field counts the padding bytes.", "quantifier": "every state reachable from New by writes, and the two successive Sum calls", "why_tests_cant": "needs the relation between the state before and after for every message length; the tests call Reset between sums", "anchors": ["sm3/sm3.go: Sum (d1 := digest copies the pointer), finish, checkSum"]}
{"id": "C05", "title": "When Write panics", "statement": "Write(p) panics exactly when p is empty (index p[0]) or p is so long that some 4-byte word it processes directly starts at an offset above 2^31-1 (the offset is converted to int32); in every other case it succeeds. Hence sm3.Sum of the empty string panics instead of returning the standard digest of the empty message.", "quantifier": "every reachable digest state and every byte string", "why_tests_cant": "multi-gigabyte inputs cannot be unit-tested and the panic depends on the phase of the 4-byte buffer", "anchors": ["sm3/sm3.go: Write, Sum, processWord(in, int32(i))"]}
{"id": "C06", "title": "Digest sizes and Sum's append behaviour", "statement": "Size() is 32 and every digest returned has exactly 32 bytes, each in 0..255; Sum(b) returns b unchanged followed by those 32 bytes. BlockSize() returns 16, which is not the 64-byte block on which the compression function works.", "quantifier": "every state and every prefix b", "why_tests_cant": "quantifies over all messages and prefixes", "anchors": ["sm3/sm3.go: Size, BlockSize, Sum, DigestLength, BlockSize const"]}
{"id": "C07", "title": "SM4 block encryption is the standard permutation", "statement": "For every 16-byte key and 16-byte block, the block Encrypt produces is the one GM/T 0002-2012 defines: 32 rounds X[i+4] = X[i] xor T(X[i+1] xor X[i+2] xor X[i+3] xor rk[i]) with the standard key schedule and reverse output order. Keys of any other length are refused by NewCipher with KeySizeError, and Encrypt and Decrypt panic if source or destination are shorter than a block.", "quantifier": "all 2^128 keys and 2^128 blocks", "why_tests_cant": "2^256 combinations", "anchors": ["sm4/sm4.go: NewCipher, Encrypt, expandKey, encRound, processBlock, f0..f3, t, l, tau, tAp, lAp, r, sBox, cK, fK"]}
{"id": "C08", "title": "SM4 Decrypt inverts Encrypt and conversely", "statement": "For every 16-byte key and 16-byte block, Decrypt(Encrypt(block)) = block and Encrypt(Decrypt(block)) = block; so both are permutations of the 2^128 blocks.", "quantifier": "all keys and all blocks", "why_tests_cant": "2^256 combinations; only a handful are tested", "anchors": ["sm4/sm4.go: Encrypt, Decrypt, expandKey (forEnc true/false), decRound, processBlock, r"]}
{"id": "C09", "title": "Encrypt/Decrypt touch exactly 16 bytes and tolerate overlapping buffers", "statement": "Encrypt(dst, src) panics exactly when len(src) < 16 or len(dst) < 16; otherwise it overwrites the first 16 bytes of dst with the image of the first 16 bytes of src as they were before the call and changes no other memory, for every placement of dst and src in one backing array, including dst = src and every partial overlap. The same holds for Decrypt.", "quantifier": "every backing array and every pair of (offset,length) windows", "why_tests_cant": "the number of overlaps and buffer contents is unbounded", "anchors": ["sm4/sm4.go: Encrypt, Decrypt, processBlock"]}
{"id": "C10", "title": "Key length is checked before any use", "statement": "NewCipher, ECBEncrypt, ECBDecrypt, CBCEncrypt and CBCDecrypt succeed only for keys of exactly 16 bytes; for data of whole blocks and any other key length they return KeySizeError(len(key)) and no data.", "quantifier": "every key length", "why_tests_cant": "key length ranges over all integers", "anchors": ["sm4/sm4.go: NewCipher, KeySizeError, ECBEncrypt, ECBDecrypt, CBCEncrypt, CBCDecrypt"]}
{"id": "C11", "title": "ECB round trip and block structure", "statement": "For every 16-byte key and every plaintext whose length is a multiple of 16, ECBEncrypt returns a ciphertext of the same length whose i-th block is the SM4 image of the i-th plaintext block, and ECBDecrypt of it returns the plaintext; for every other length both return the error 'input not full blocks'. Neither ever panics.", "quantifier": "all keys, all plaintexts of any length", "why_tests_cant": "unbounded lengths", "anchors": ["sm4/sm4.go: ECBEncrypt, ECBDecrypt"]}
{"id": "C12", "title": "CBC round trip and chaining", "statement": "For every 16-byte key, 16-byte iv and every plaintext of whole blocks, CBCEncrypt returns C with C[i] = E(P[i] xor C[i-1]), C[-1] = iv, and CBCDecrypt of it with the same key and iv returns the plaintext; non-multiple lengths yield an error; with a valid key and whole blocks, an iv whose length is not 16 makes both functions panic.", "quantifier": "all keys, ivs, plaintexts", "why_tests_cant": "unbounded lengths", "anchors": ["sm4/sm4.go: CBCEncrypt, CBCDecrypt (crypto/cipher NewCBCEncrypter/NewCBCDecrypter)"]}
{"id": "C13", "title": "Padded encryption round trip for arbitrary messages", "statement": "For every message of any length, PKCS5Padding to 16, ECB or CBC encryption, the matching decryption and PKCS5UnPadding returns exactly the message; likewise ZeroPadding with UnZeroPadding of the number of bytes added.", "quantifier": "every key, iv and message", "why_tests_cant": "every length and every content, including messages ending in bytes that look like padding", "anchors": ["sm4/sm4.go: ECBEncrypt, ECBDecrypt, CBCEncrypt, CBCDecrypt", "util/padding.go: PKCS5Padding, PKCS5UnPadding, ZeroPadding, UnZeroPadding"]}
{"id": "C14", "title": "PKCS5Padding shape and inversion", "statement": "For block sizes b from 1 to 255 PKCS5Padding(src,b) is src followed by between 1 and b bytes all equal to their number, its length is a multiple of b, and PKCS5UnPadding inverts it. For b >= 256 inversion fails exactly when at least 256 bytes are added (the count is truncated to a byte); b = 0 panics with a division by zero.", "quantifier": "every src and every block size", "why_tests_cant": "both arguments unbounded; the failing region starts where no test looks", "anchors": ["util/padding.go: PKCS5Padding, PKCS5UnPadding"]}
{"id": "C15", "title": "PKCS5UnPadding never validates", "statement": "PKCS5UnPadding(src) panics exactly when src is empty or its last byte exceeds len(src); in every other case it returns the prefix of src with as many bytes removed as the last byte says, whatever the removed bytes are.", "quantifier": "every byte string", "why_tests_cant": "all malformed inputs", "anchors": ["util/padding.go: PKCS5UnPadding"]}
{"id": "C16", "title": "ZeroPadding and UnZeroPadding", "statement": "ZeroPadding(src,b) is src followed by between 1 and b zero bytes and has length a multiple of b (b >= 1); UnZeroPadding(x,k) removes exactly the last k bytes, and panics exactly when k exceeds len(x) or, for negative k, when len(x)-k exceeds the capacity of x.", "quantifier": "every src, block size and k", "why_tests_cant": "unbounded", "anchors": ["util/padding.go: ZeroPadding, UnZeroPadding"]}
{"id": "C17", "title": "Padding functions may write into the caller's backing array", "statement": "PKCS5Padding and ZeroPadding append to src: the bytes src itself shows never change, but the bytes of the backing array behind len(src) are overwritten by the padding exactly when the spare capacity is large enough to hold it; otherwise no byte visible to the caller changes.", "quantifier": "every backing array, window and block size", "why_tests_cant": "aliasing depends on capacity relations no unit test enumerates", "anchors": ["util/padding.go: PKCS5Padding, ZeroPadding (append)"]}
{"id": "C18", "title": "Fixed-width integer reads", "statement": "ReadUint8/16/24/32 succeed exactly when at least 1/2/3/4 bytes remain; then they return the big-endian value of the leading bytes and advance by exactly that many; otherwise they return false and leave the String unchanged.", "quantifier": "every byte string", "why_tests_cant": "all inputs", "anchors": ["cryptobyte/string.go: ReadUint8, ReadUint16, ReadUint24, ReadUint32, read"]}
{"id": "C19", "title": "Length-prefixed reads", "statement": "ReadUint8/16/24LengthPrefixed succeed exactly when the String is a big-endian length of 1/2/3 bytes, followed by at least that many bytes; they return exactly those bytes and the remainder. On failure because the body is short, the length prefix has nevertheless been consumed; on failure because the prefix is short nothing is consumed.", "quantifier": "every byte string", "why_tests_cant": "all inputs", "anchors": ["cryptobyte/string.go: readLengthPrefixed, ReadUint8LengthPrefixed, ReadUint16LengthPrefixed, ReadUint24LengthPrefixed"]}
{"id": "C20", "title": "Reads split the input: nothing is invented, reordered or read twice", "statement": "Every String method that succeeds leaves the String equal to a suffix of what it was, and for ReadBytes, CopyBytes, ReadASN1Element and ReadAnyASN1Element the value read followed by the remainder is exactly the previous String.", "quantifier": "every byte string and every n >= 0", "why_tests_cant": "all inputs", "anchors": ["cryptobyte/string.go: read, Skip, ReadBytes, CopyBytes", "cryptobyte/asn1.go: readASN1, ReadASN1Element, ReadAnyASN1Element"]}
{"id": "C21", "title": "Skip/ReadBytes boundary behaviour on n", "statement": "For n < 0, Skip(n) and ReadBytes(_, n) panic; for n >= 0 they succeed exactly when n <= len(s) and the String is not the nil slice; in particular Skip(0) reports failure on a nil String but success on an empty non-nil one.", "quantifier": "every String, nil or not, and every integer n", "why_tests_cant": "distinguishes nil from empty for all n", "anchors": ["cryptobyte/string.go: read, Skip, ReadBytes"]}
{"id": "C22", "title": "ReadAnyASN1 accepts exactly the DER headers with definite minimal length", "statement": "ReadAnyASN1 succeeds on s exactly when s = t . L . content . rest where t is a single identifier octet with tag number below 31, L is the unique minimal DER encoding of len(content) using at most four length octets, and header plus content is at most 2^32-1 bytes; it returns t and content and leaves rest. It never panics.", "quantifier": "every byte string", "why_tests_cant": "all inputs, including adversarial lengths near the uint32 wrap-around", "anchors": ["cryptobyte/asn1.go: readASN1, ReadAnyASN1, ReadAnyASN1Element", "cryptobyte/string.go: readUnsigned"]}
{"id": "C23", "title": "DER element parsing is canonical", "statement": "Two byte strings from which ReadAnyASN1 reads the same tag and the same content, leaving the same remainder, are equal.", "quantifier": "every pair of byte strings", "why_tests_cant": "pairs of arbitrary inputs", "anchors": ["cryptobyte/asn1.go: readASN1"]}
{"id": "C24", "title": "A tag mismatch consumes the element", "statement": "ReadASN1(out, tag) returns true exactly when ReadAnyASN1 would succeed with that tag; when the element is well formed but carries another tag it returns false after advancing past the whole element, so a failed ReadASN1 does not restore the String.", "quantifier": "every byte string and tag", "why_tests_cant": "all inputs", "anchors": ["cryptobyte/asn1.go: ReadASN1, ReadASN1Element, SkipASN1"]}
{"id": "C25", "title": "Builder and String integers round-trip", "statement": "For every v in range, the bytes AddUint8/16/24/32(v) appends, followed by anything, are read back by the matching read as v (modulo 2^24 for the 24-bit form given a 32-bit argument), leaving what followed.", "quantifier": "every v and every suffix", "why_tests_cant": "2^32 values times all contexts", "anchors": ["cryptobyte/builder.go: AddUint8, AddUint16, AddUint24, AddUint32", "cryptobyte/string.go: ReadUint*"]}
{"id": "C26", "title": "Growing Builders serialise the tree of calls", "statement": "For every tree of AddBytes, length-prefixed (1,2,3,4-byte) and AddASN1 calls with tag numbers below 31 and every initial buffer, a growing Builder returns from Bytes the initial buffer followed by the concatenation, in call order, of the bytes and of each child's contents preceded by its exact length (big-endian fixed width, or tag and minimal DER length), provided each child fits its prefix.", "quantifier": "every nesting depth, arity and content", "why_tests_cant": "trees are unbounded; children move bytes when DER lengths grow past 127, 255, 65535, ...", "anchors": ["cryptobyte/builder.go: add, addLengthPrefixed, flushChild, callContinuation, Bytes", "cryptobyte/asn1.go: AddASN1"]}
{"id": "C27", "title": "Child longer than its length prefix is an error, never a truncated length", "statement": "If any child in the tree does not fit its 1-, 2-, 3- or 4-byte prefix (or an ASN.1 child exceeds 2^32-2 bytes, or an identifier octet has tag number 31), Bytes returns an error and no bytes.", "quantifier": "every tree", "why_tests_cant": "needs children of 2^16, 2^24, 2^32 bytes", "anchors": ["cryptobyte/builder.go: flushChild", "cryptobyte/asn1.go: AddASN1"]}
{"id": "C28", "title": "Builder errors are sticky", "statement": "Once an error is recorded in a Builder, no later Add call changes it to success: Bytes keeps returning an error, whatever is added afterwards. (A continuation that panics with a BuildError holding a nil error is the exception, see C113.)", "quantifier": "every later sequence of calls", "why_tests_cant": "unbounded continuations", "anchors": ["cryptobyte/builder.go: add, addLengthPrefixed, Bytes, AddValue", "cryptobyte/asn1.go: AddASN1"]}
{"id": "C29", "title": "Fixed builders: capacity respected, children lost", "statement": "A Builder from NewFixedBuilder never writes outside the capacity of its buffer, and with plain Adds returns the initial bytes followed by the added ones exactly when they fit the capacity (otherwise an error). But the contents of length-prefixed children are lost: after a successful child the fixed Builder's length still ends right after the reserved length prefix, so Bytes omits the child's contents and the next Add overwrites them. And when not even the length prefix of a child fits, the call can panic with an internal error instead of recording one.", "quantifier": "every buffer, capacity and call sequence", "why_tests_cant": "depends on all capacity/length relations", "anchors": ["cryptobyte/builder.go: NewFixedBuilder, add, flushChild (if !b.fixedSize)"]}
{"id": "C30", "title": "Writing to a parent while its child is open panics; BuildError panics become errors", "statement": "A write to a Builder whose child is pending panics (unless that Builder already has an error, when it is ignored). If a continuation panics with BuildError{e}, the outermost Builder's Bytes returns an error; any other panic value propagates.", "quantifier": "every nesting", "why_tests_cant": "control flow through arbitrary nesting", "anchors": ["cryptobyte/builder.go: add, callContinuation"]}
{"id": "C31", "title": "ASN.1 element round trip through Builder and String", "statement": "For every tag with number below 31 and every content of at most 2^32-8 bytes, reading with ReadASN1(tag) what AddASN1(tag, content) wrote, followed by anything, succeeds and returns the content and what followed.", "quantifier": "every tag, content and suffix", "why_tests_cant": "all sizes across the five length forms", "anchors": ["cryptobyte/builder.go: flushChild", "cryptobyte/asn1.go: AddASN1, ReadASN1, readASN1"]}
{"id": "C32", "title": "INTEGER round trip for big integers", "statement": "For every integer n of any sign and size other than -1, AddASN1BigInt(n) appends the shortest two's-complement big-endian DER INTEGER of n (up to the 2^32-2 octets an element can hold), and ReadASN1Integer into a big.Int reads n back and leaves what followed. The one exception: AddASN1BigInt(-1) panics with an index out of range, because the absolute value minus one has no bytes.", "quantifier": "every integer", "why_tests_cant": "unbounded; sign and leading-byte boundaries at every 8-bit step", "anchors": ["cryptobyte/asn1.go: AddASN1BigInt, readASN1BigInt, checkASN1Integer"]}
{"id": "C33", "title": "INTEGER round trip for int64 and uint64, with range checks on narrow reads", "statement": "AddASN1Int64/AddASN1Enum(v) for every int64 and AddASN1Uint64(v) for every uint64 write the same DER as AddASN1BigInt would (up to the tag) and read back as v; ReadASN1Integer into an integer of w bits succeeds exactly when the encoded value lies in that type's range, and never truncates.", "quantifier": "every 64-bit value and every target width", "why_tests_cant": "2^64 values", "anchors": ["cryptobyte/asn1.go: addASN1Signed, AddASN1Uint64, readASN1Int64, readASN1Uint64, asn1Signed, asn1Unsigned, ReadASN1Integer, ReadASN1Enum"]}
{"id": "C34", "title": "INTEGER decoding is canonical", "statement": "ReadASN1Integer (big) accepts a content exactly when it is the unique minimal two's-complement encoding of some integer, so two different accepted contents denote different integers.", "quantifier": "every content", "why_tests_cant": "all byte strings", "anchors": ["cryptobyte/asn1.go: checkASN1Integer, readASN1BigInt"]}
{"id": "C35", "title": "OBJECT IDENTIFIER round trip and its limit", "statement": "Every OID with at least two arcs, first arc 0..2, second arc below 40 when the first is 0 or 1, non-negative arcs and every base-128 group below 2^28 is written and read back unchanged. The bound is sharp: the writer accepts arcs of 2^28 and more that the reader then rejects; and the reader is not canonical: it accepts non-minimal groups with leading 0x80 octets. Other arc lists are refused with an error, except that the first group is computed in a 64-bit integer: [2, 2^63-1, ...] wraps and is written as a different OID.", "quantifier": "every OID", "why_tests_cant": "arc values and lengths unbounded", "anchors": ["cryptobyte/asn1.go: AddASN1ObjectIdentifier, addBase128Int, isValidOID, ReadASN1ObjectIdentifier, readBase128Int"]}
{"id": "C36", "title": "BIT STRING and OCTET STRING round trips", "statement": "AddASN1BitString(data) reads back with ReadASN1BitStringAsBytes as data and with ReadASN1BitString as data with BitLength = 8*len(data); AddASN1OctetString round-trips; ReadASN1BitString accepts exactly the contents whose first octet u is at most 7, is 0 if nothing follows, and whose last u bits are zero.", "quantifier": "every byte string", "why_tests_cant": "all contents", "anchors": ["cryptobyte/asn1.go: AddASN1BitString, AddASN1OctetString, ReadASN1BitString, ReadASN1BitStringAsBytes, ReadASN1Bytes"]}
{"id": "C37", "title": "BOOLEAN does not round-trip", "statement": "ReadASN1Boolean looks for the INTEGER tag: it rejects every BOOLEAN AddASN1Boolean writes, and accepts exactly INTEGER elements with the single content octet 0x00 or 0xFF; consequently ReadOptionalASN1Boolean, when a BOOLEAN is present, discards it and reads a following INTEGER element instead.", "quantifier": "both values and every suffix", "why_tests_cant": "quantifies over all inputs accepted", "anchors": ["cryptobyte/asn1.go: AddASN1Boolean, ReadASN1Boolean, ReadOptionalASN1Boolean"]}
{"id": "C38", "title": "Optional elements", "statement": "ReadOptionalASN1/SkipOptionalASN1 leave the String untouched and succeed when the next octet is not the tag; otherwise they behave exactly like ReadASN1. ReadOptionalASN1Integer/OctetString return the default or nil when absent and, when present, succeed exactly when the explicitly tagged content is one complete INTEGER/OCTET STRING with nothing after it.", "quantifier": "every byte string, tag and default", "why_tests_cant": "all inputs", "anchors": ["cryptobyte/asn1.go: PeekASN1Tag, ReadOptionalASN1, SkipOptionalASN1, ReadOptionalASN1Integer, ReadOptionalASN1OctetString"]}
{"id": "C39", "title": "The SM2 domain parameters are valid", "statement": "P and N are prime, A = P-3, 2^255 < N < P < 2^256, the discriminant 4A^3+27B^2 is nonzero mod P, the base point lies on the curve, is not the point at infinity, and k*G is the infinity point exactly when N divides k; two byte strings give the same multiple of G exactly when they are congruent mod N.", "quantifier": "the constants; every integer k", "why_tests_cant": "primality of 256-bit numbers and the order of a point cannot be settled by sampling", "anchors": ["sm2/sm2.go: initSm2P256V1, GetSm2P256V1"]}
{"id": "C40", "title": "Curve arithmetic is a commutative group law", "statement": "On points of the curve (with (0,0) for infinity), Add, Double and ScalarMult as crypto/elliptic's generic CurveParams computes them (Jacobian coordinates) return exactly what the affine chord-and-tangent rule prescribes, and that sum is unique; Add is associative and commutative with identity (0,0) and inverses; ScalarMult(P, k) is the k-fold sum for every byte string k. None of them panics.", "quantifier": "all points, all scalars", "why_tests_cant": "2^256 points; exceptional cases (P=Q, P=-Q, infinity) are hit with negligible probability by random tests", "anchors": ["sm2/sm2.go: P256V1Curve (embeds elliptic.CurveParams)", "crypto/elliptic CurveParams.Add, Double, ScalarMult, ScalarBaseMult"]}
{"id": "C41", "title": "Raw key encodings round-trip", "statement": "For coordinates and private scalars in [0, 2^256), GetRawBytes/GetUnCompressBytes produce exactly 64/65/32 bytes, big-endian and left-padded with zeros (0x04 first for the uncompressed form), and RawBytesToPublicKey/RawBytesToPrivateKey of them give the key back; conversely every 64- or 32-byte string is accepted and re-encodes to itself; any other length is an error. No validity check is made: points off the curve, d = 0 and d >= N are accepted. Values of 2^256 or more make the encoders panic.", "quantifier": "all keys and byte strings", "why_tests_cant": "leading-zero coordinates occur once in 256 keys per byte", "anchors": ["sm2/sm2.go: RawBytesToPublicKey, RawBytesToPrivateKey, GetUnCompressBytes, GetRawBytes, bigIntTo32Bytes"]}
{"id": "C42", "title": "Key generation yields matching keys", "statement": "For every random source, if GenerateKey succeeds then D < N, the public point equals D*G = CalculatePubKey(priv) and is on the curve or (only when D = 0) the infinity point; if the source runs out before an acceptable scalar is drawn, an error is returned.", "quantifier": "every random tape", "why_tests_cant": "quantifies over all random streams", "anchors": ["sm2/sm2.go: GenerateKey, CalculatePubKey (elliptic.GenerateKey)"]}
{"id": "C43", "title": "Nonces are drawn from [1, N-1]", "statement": "Whatever the random source delivers, the nonces considered by Encrypt and SignToRS are, in order, the 32-byte big-endian blocks of the source that lie in [1, N-1]; all other blocks are discarded, the source is left just after the block that was used, and exhaustion of the source is reported as an error.", "quantifier": "every random tape", "why_tests_cant": "all streams", "anchors": ["sm2/sm2.go: nextK (crypto/rand.Int)"]}
{"id": "C44", "title": "Every signature produced verifies", "statement": "For every private scalar D >= 0 and its public key CalculatePubKey gives (infinity included), every user id (including nil) and every non-empty message, both shorter than 2^31 bytes, and every random tape: if SignToRS returns (r,s) then VerifyByRS with the same id and message returns true; and Verify accepts the DER produced by Sign.", "quantifier": "all keys, ids, messages and random tapes", "why_tests_cant": "2^256 keys times 2^256 nonces times all messages", "anchors": ["sm2/sm2.go: SignToRS, Sign, VerifyByRS, Verify, calculateE, getZ, MarshalSign, UnmarshalSign"]}
{"id": "C45", "title": "Signature components are in range and follow the standard's equations", "statement": "If SignToRS returns (r,s) then 1 <= r,s <= N-1 and for some nonce k in [1,N-1] r = (e + x1) mod N where (x1,_) = k*G, r + k != N, and (1+D) s = k - r D (mod N), with e = SM3(Z || M) for the standard Z. It returns the pair of the first nonce of the tape that has one.", "quantifier": "all keys, ids, messages and tapes", "why_tests_cant": "as above", "anchors": ["sm2/sm2.go: SignToRS, calculateE, getZ"]}
{"id": "C46", "title": "VerifyByRS decides exactly the standard's verification equation", "statement": "For every public key on the curve with coordinates below 2^256, every id and non-empty message shorter than 2^31 bytes and all integers r,s of any sign or size, VerifyByRS returns true exactly when 1 <= r,s <= N-1, t = (r+s) mod N is nonzero, s*G + t*P is not infinity and (e + x(s*G+t*P)) mod N = r; it returns false otherwise and never panics. The key (0,0) is treated as the point at infinity.", "quantifier": "all r, s, keys, ids, messages", "why_tests_cant": "accept set is sparse; rejecting behaviour needs all inputs", "anchors": ["sm2/sm2.go: VerifyByRS"]}
{"id": "C47", "title": "Signing never terminates when D = -1 mod N", "statement": "If D+1 is divisible by N (a private key RawBytesToPrivateKey and GenerateKey both accept), then for every random tape SignToRS consumes the whole tape without ever producing a signature: the loop has no exit.", "quantifier": "every random tape, id and message", "why_tests_cant": "non-termination cannot be observed by a test", "anchors": ["sm2/sm2.go: SignToRS (util.ModInverse of a non-invertible value yields 0)", "util/bigint.go: ModInverse"]}
{"id": "C48", "title": "Empty messages panic in Sign and Verify", "statement": "SignToRS with an empty message panics for every key; VerifyByRS with an empty message panics whenever r and s are in range, and returns false otherwise.", "quantifier": "every key with coordinates below 2^256, id, tape, r, s", "why_tests_cant": "all keys and ids", "anchors": ["sm2/sm2.go: calculateE (digest.Write(src))", "sm3/sm3.go: Write"]}
{"id": "C49", "title": "User id handling: default id and 16-bit length wrap", "statement": "A nil user id signs and verifies exactly like the default id 1234567812345678, while an empty non-nil id is hashed as an id of length 0. The two-byte length field is 8*len(id) mod 2^16: for ids shorter than 8192 bytes it is the bit length; from 8192 bytes on it wraps, so the hashed field no longer determines the length.", "quantifier": "every id", "why_tests_cant": "ids of 8 KiB and more; all contents", "anchors": ["sm2/sm2.go: getZ, SignToRS, VerifyByRS, sm2SignDefaultUserId"]}
{"id": "C50", "title": "Decrypt inverts Encrypt", "statement": "For every private scalar D >= 0 and the public key CalculatePubKey gives for it, every message shorter than 2^31-97 bytes, every order value and every random tape: if Encrypt returns a ciphertext, Decrypt with the same order returns exactly the message.", "quantifier": "all keys, messages, orders, tapes", "why_tests_cant": "2^512 combinations and all lengths (multi-block KDF, counter)", "anchors": ["sm2/sm2.go: Encrypt, Decrypt, kdf, xor, notEncrypted"]}
{"id": "C51", "title": "Ciphertext layout", "statement": "A ciphertext returned by Encrypt has 97 + len(message) bytes: 0x04, x1, y1 of k*G (32 bytes each), then C2, C3 or C3, C2 according to the order requested, with C2 = message xor KDF(x2||y2) not equal to the message and C3 = SM3(x2||message||y2); the two orders of the same tape are rearrangements of each other. For other order values an error is returned. Encryption succeeds as soon as the tape holds a nonce whose key stream changes the message.", "quantifier": "all keys, messages, tapes", "why_tests_cant": "all lengths", "anchors": ["sm2/sm2.go: Encrypt, C1C2C3, C1C3C2"]}
{"id": "C52", "title": "Decrypt only returns authenticated plaintext", "statement": "For every input shorter than 2^31 bytes Decrypt returns data M exactly when the order is known, the input is longer than 97 bytes, its first 65 bytes encode a finite curve point C1, its C3 field equals SM3(x2||M||y2) for (x2,y2) = D*C1 and its C2 field equals M xor KDF(x2||y2).", "quantifier": "every input byte string and key", "why_tests_cant": "all adversarial inputs", "anchors": ["sm2/sm2.go: Decrypt"]}
{"id": "C53", "title": "Decrypt panics on malformed input", "statement": "Decrypt does not return an error but panics on every input shorter than 97 bytes (as an exactly sized slice), on every input whose first 65 bytes are not an encoding of a curve point, and on every 97-byte input with a valid C1 (empty C2).", "quantifier": "every such input", "why_tests_cant": "all malformed inputs", "anchors": ["sm2/sm2.go: Decrypt (in[:c1Len], elliptic.Unmarshal result unused, make negative, digest.Write(empty))"]}
{"id": "C54", "title": "Encrypting an empty message never returns", "statement": "For an empty message Encrypt consumes every random tape without producing a ciphertext: its retry loop cannot exit.", "quantifier": "every key, order and tape", "why_tests_cant": "non-termination", "anchors": ["sm2/sm2.go: Encrypt, notEncrypted"]}
{"id": "C55", "title": "DER signatures round-trip; trailing data is ignored", "statement": "MarshalSign(r,s) is the DER SEQUENCE of the two INTEGERs. UnmarshalSign accepts exactly the byte strings that start with a SEQUENCE (content below 2^31 bytes) whose first two elements are DER INTEGERs, and returns those; so UnmarshalSign(MarshalSign(r,s)) = (r,s). Unmarshalling is not injective: any bytes appended after the SEQUENCE, or inside it after s, are ignored, so Verify accepts infinitely many encodings of each valid signature.", "quantifier": "all integers, all byte strings, all suffixes", "why_tests_cant": "unbounded", "anchors": ["sm2/sm2.go: MarshalSign, UnmarshalSign, Verify (encoding/asn1)"]}
{"id": "C56", "title": "DER ciphertexts round-trip", "statement": "For every raw ciphertext of at least 97 bytes (and below 2^31-100) and either order, MarshalCipher gives the DER SEQUENCE of C1's coordinates as INTEGERs and the two parts as OCTET STRINGs in the given order, and UnmarshalCipher of that with the same order equals the ciphertext with its first byte replaced by 0x04; shorter inputs make MarshalCipher panic; unknown orders give an error.", "quantifier": "every byte string, both orders", "why_tests_cant": "coordinates with leading zeros or high bit set change DER lengths", "anchors": ["sm2/sm2.go: MarshalCipher, UnmarshalCipher, bigIntTo32Bytes"]}
{"id": "C57", "title": "UnmarshalCipher panics on oversized coordinates", "statement": "UnmarshalCipher panics, rather than returning an error, exactly on the well-formed DER whose X or Y has absolute value of 2^256 or more; a negative coordinate is silently replaced by its absolute value; every input that is not well-formed gives an error.", "quantifier": "every such input", "why_tests_cant": "adversarial inputs", "anchors": ["sm2/sm2.go: UnmarshalCipher, bigIntTo32Bytes"]}
{"id": "C58", "title": "Key exchange: both sides derive the same key and tags", "statement": "For all static and ephemeral key pairs of the two parties, all ids (nil or not, below 2^31 bytes), and every keyBits: if the responder's CalculateKeyWithConfirmation returns a result, then its S1 is non-nil, the initiator's call with that S1 returns a result too, both have the same key of max(0, floor((keyBits+7)/8)) bytes, and ResponderConfirm(S2 of responder, S2 of initiator) is true. ResponderConfirm is equality of byte strings.", "quantifier": "all quadruples of private scalars and all ids", "why_tests_cant": "2^1024 combinations", "anchors": ["sm2/keyexchange.go: CalculateKeyWithConfirmation, calculateU, reduce, kdfForExch, calculateInnerHash, s1, s2, ResponderConfirm"]}
{"id": "C59", "title": "Key exchange rejects a wrong confirmation tag", "statement": "For the initiator a nil tag is refused with an error. For every choice of keys, points (valid or not), ids and lengths, at most one tag is accepted, always with the same result; every other tag yields the error 'confirmation tag mismatch' and no key. The responder's call never returns an error: it returns a result or panics.", "quantifier": "every tag", "why_tests_cant": "all tags and keys", "anchors": ["sm2/keyexchange.go: CalculateKeyWithConfirmation"]}
{"id": "C60", "title": "Key exchange cannot produce keys longer than 128 bits", "statement": "With valid points (on the curve, or infinity) the outcome of CalculateKeyWithConfirmation is exactly: a panic if keyBits > 128, keyBits <= -15, or one of the six hashed coordinates is zero; otherwise the key is the first floor((keyBits+7)/8) bytes of one SM3 digest of U's coordinates, the two Z values and the counter 1, where U = [t]P + [t xbar]R, and the tags are the two nested digests, with the initiator's data first in both roles.", "quantifier": "every keyBits and all keys", "why_tests_cant": "all lengths", "anchors": ["sm2/keyexchange.go: kdfForExch", "sm3/sm3.go: BlockSize"]}
{"id": "C61", "title": "reduce computes 2^w + (x mod 2^w)", "statement": "The key exchange's coordinate reduction equals 2^127 + (x mod 2^127) for every integer, as the standard prescribes.", "quantifier": "every integer x", "why_tests_cant": "all x", "anchors": ["sm2/keyexchange.go: reduce"]}
{"id": "C62", "title": "Key usage bits survive encoding", "statement": "For every non-negative KeyUsage of a template, the KeyUsage extension built for it parses back, in a certificate, to the KeyUsage modulo 512; so the nine defined usages come back exactly. The BIT STRING has no superfluous trailing zero bits.", "quantifier": "every KeyUsage value", "why_tests_cant": "bit-order reversal and bit-length trimming per value", "anchors": ["sm2/cert/gmx509.go: buildExtensions (KeyUsage), reverseBitsInAByte, asn1BitLength, parseCertificate case 15"]}
{"id": "C63", "title": "IP ranges: masks accepted are exactly the prefixes of ones", "statement": "An IP range in a name-constraints extension is accepted exactly when it has 8 or 32 bytes and its second half, as bits, is some number of ones followed only by zeros; it is then read as address and mask. Any other range makes the certificate be refused.", "quantifier": "every byte string", "why_tests_cant": "all byte strings", "anchors": ["sm2/cert/gmx509.go: isValidIPMask"]}
{"id": "C64", "title": "Domain names in name constraints", "statement": "A DNS name (or URI domain that is not an IP address) in a name-constraints extension is accepted exactly when all its bytes are below 0x80 and, with one leading dot taken off, it is empty or an optional further dot followed by a dot-separated list of non-empty labels of printable ASCII characters (33..126). The labels are determined by the name, so no two readings exist.", "quantifier": "every string", "why_tests_cant": "all strings", "anchors": ["sm2/cert/gmx509.go: domainToReverseLabels"]}
{"id": "C65", "title": "Names in constraints are exactly 7-bit", "statement": "Creating a certificate whose name constraints contain a DNS name, email or URI with a byte of 0x80 or above fails, and so does parsing one; names with bytes below 0x80 only never fail for that reason. This holds for invalid UTF-8 as well.", "quantifier": "every byte string, valid UTF-8 or not", "why_tests_cant": "all strings", "anchors": ["sm2/cert/gmx509.go: isIA5String"]}
{"id": "C66", "title": "Extended key usages and OIDs are in bijection", "statement": "The 14 known extended key usages and their OIDs determine each other. The list of usages and of unknown usage OIDs of a template comes back from the extension, known ones first, each in its order; an OID outside the table is kept as unknown. A template with any other usage number makes certificate creation panic.", "quantifier": "every list of usages and every list of OIDs", "why_tests_cant": "all OIDs", "anchors": ["sm2/cert/gmx509.go: oidFromExtKeyUsage, extKeyUsageFromOID, extKeyUsageOIDs"]}
{"id": "C67", "title": "Extensions: at most ten generated, no duplicates, explicit ones win", "statement": "For every template the extensions put into the certificate are: at most ten generated ones, each kind at most once and only when the template asks for it and its OID does not occur in ExtraExtensions, followed by all ExtraExtensions in order. Building them never goes outside the ten-element buffer; it panics only for an unknown extended key usage. In a certificate info the generated key usage and basic constraints extensions are always critical, the alternative names exactly when the subject is empty, the name constraints exactly when the template says so, and no other generated extension is.", "quantifier": "every template", "why_tests_cant": "2^10 presence combinations times all contents", "anchors": ["sm2/cert/gmx509.go: buildExtensions, oidInExtensions"]}
{"id": "C68", "title": "Basic constraints survive encoding", "statement": "For every IsCA flag and path length, the BasicConstraints extension parses back to the same IsCA and to MaxPathLen, where a template MaxPathLen of 0 without MaxPathLenZero comes back as -1 (no limit).", "quantifier": "every path length", "why_tests_cant": "all integers", "anchors": ["sm2/cert/gmx509.go: buildExtensions, basicConstraints, parseCertificate case 19"]}
{"id": "C69", "title": "Name constraints survive encoding", "statement": "For every template whose constraint names are acceptable to the parser, the NameConstraints extension built from permitted and excluded DNS names, IP ranges, emails and URI domains parses back to the same lists in the same order with IP addresses masked, and with the template's critical flag. The statement for all IP ranges that net.IPNet allows is false: a 4-byte address with a 16-byte mask is written in a form that is refused when read.", "quantifier": "every list of constraints", "why_tests_cant": "unbounded lists and contents", "anchors": ["sm2/cert/gmx509.go: buildExtensions (serialiseConstraints), parseNameConstraintsExtension"]}
{"id": "C70", "title": "Subject alternative names survive encoding", "statement": "For all lists of DNS names, email addresses, 4- or 16-byte IP addresses and URIs whose text parses with an acceptable host, the SAN extension parses back to the same lists (IPv4-mapped addresses in 4-byte form). An IP address of any other length is written but refused when read. Names of other kinds are skipped; the class and the constructed bit of a name are ignored, so an INTEGER element counts as a DNS name.", "quantifier": "every list", "why_tests_cant": "unbounded lists and contents", "anchors": ["sm2/cert/gmx509.go: marshalSANs, parseSANExtension, forEachSAN"]}
{"id": "C71", "title": "Issued certificates carry exactly the signed bytes", "statement": "For every certificate info whose Raw bytes are a DER SEQUENCE, every CA key and id, if IssueCertificateBySoftCAKey succeeds then the outer SEQUENCE contains those Raw bytes verbatim as its first element, then the algorithm identifier, then a BIT STRING holding a DER signature that sm2.Verify accepts for exactly those bytes under the CA's public key. If the Raw bytes are a DER element of another type, what is signed is not what is written: the element's header is replaced by that of a SEQUENCE.", "quantifier": "every tbs, key, id and tape", "why_tests_cant": "all keys and contents", "anchors": ["sm2/cert/gmx509.go: IssueCertificateBySoftCAKey, CreateCertificate, ParseCertificate"]}
{"id": "C72", "title": "Mailboxes in name constraints", "statement": "An email constraint containing '@' is accepted exactly when its bytes are below 0x80 and it is a mailbox: a local part, quoted or not, an '@' and a domain as in C64 (which may be empty); an unquoted local part is non-empty, neither starts nor ends with a dot, and has no two dots in a row. One without '@' is treated as a domain. No string makes the parser panic.", "quantifier": "every string", "why_tests_cant": "all strings", "anchors": ["sm2/cert/gmx509.go: parseRFC2821Mailbox"]}
{"id": "C73", "title": "Filling a template from a CSR copies only what it says", "statement": "After filling, the template's subject, key, SAN lists and extension lists are the CSR's; serial, validity, usages, raw subject and all other fields are untouched. Since parsing never sets ExtraExtensions, the extensions of the certificate are exactly the kinds the template asks for and the subject alternative names, with no duplicates; two parsed CSRs for the same subject give certificate contents that differ only in the key and the subject alternative names; and the key is the one parsed from the CSR.", "quantifier": "every template, issuer and pair of byte strings that parse as CSRs", "why_tests_cant": "non-interference is about all pairs of requests", "anchors": ["sm2/cert/gmx509.go: FillCertificateTemplateByCSR, parseCertificateRequest, buildExtensions"]}
{"id": "C74", "title": "Key exchange hashes coordinates without leading zero bytes", "statement": "If all six hashed coordinates (of the shared point and both ephemeral points) are at least 2^248, both roles obtain exactly the key and tags of GM/T 0003.3, which hashes 32-byte coordinates. The statement without that condition is false: there are key pairs for which the responder returns a result whose S1 differs from the standard's.", "quantifier": "all keys, ids, lengths; one witness for the refutation", "why_tests_cant": "a coordinate has a leading zero byte once in 256 cases; only then does interoperability fail", "anchors": ["sm2/keyexchange.go: kdfForExch, calculateInnerHash, s1, s2 (big.Int.Bytes)"]}
{"id": "C75", "title": "An ephemeral key with x = 0 makes the peer panic", "statement": "There is a point on the curve with x = 0. Whoever receives it as the other side's ephemeral key panics, in either role, for all own keys, all ids and all lengths (instead of returning an error).", "quantifier": "all keys, ids, lengths and tags of the victim", "why_tests_cant": "a random point has x = 0 with probability 2^-255", "anchors": ["sm2/keyexchange.go: calculateInnerHash", "sm3/sm3.go: Write"]}
{"id": "C76", "title": "Identifiers, information access, policies and CRL addresses survive encoding", "statement": "For every template, the subject key id, the authority key id, the OCSP and issuer addresses, the certificate policies and the CRL distribution points that are put into extensions come back from the parser unchanged and in order.", "quantifier": "every byte string, every list of strings and of OIDs", "why_tests_cant": "unbounded lists and contents", "anchors": ["sm2/cert/gmx509.go: buildExtensions, parseCertificate"]}
{"id": "C77", "title": "All extensions of a template read back together", "statement": "For every template whose values are in range, the list of extensions built for it, when given to the certificate parser, sets exactly the fields the template asked for, to the template's values; every extra extension of a kind the parser does not know is skipped, and listed as unhandled exactly when it is critical.", "quantifier": "every template and every list of extra extensions of foreign kinds", "why_tests_cant": "2^10 presence combinations times unbounded contents; the fields must not disturb each other", "anchors": ["sm2/cert/gmx509.go: buildExtensions, parseCertificate"]}
{"id": "C78", "title": "Validity times survive encoding to the second", "statement": "Every UTC instant of the years 0 to 9999 is written as UTCTime or GeneralizedTime and read back as the same instant with fractions of a second dropped; instants outside those years are refused when writing. The calendar computation gives the unique valid date of every day.", "quantifier": "every instant", "why_tests_cant": "3*10^11 instants; leap years and century switches", "anchors": ["sm2/cert/gmx509.go: CreateCertificateInfo, parseCertificate (validity)"]}
{"id": "C79", "title": "Distinguished names survive encoding", "statement": "For every sequence of relative distinguished names whose attribute types are valid OIDs and whose values are strings, marshalling that succeeds gives a DER element that parses back to the same sequence; strings outside the PrintableString set are written as UTF8String and invalid UTF-8 is refused. A pkix.Name written and read back has the values of its typed fields (with single-valued fields taking the last value) unless ExtraNames has entries of the same type, which replace them; the full attribute list is in Names.", "quantifier": "every name and attribute list", "why_tests_cant": "unbounded strings, types and orders", "anchors": ["sm2/cert/gmx509.go: subjectBytes, parseCertificate, parseCertificateRequest (crypto/x509/pkix, encoding/asn1)"]}
{"id": "C80", "title": "An issued certificate reads back as it was asked for", "statement": "If a certificate is built from a template, a parent and a request and is issued, parsing the result succeeds and gives exactly: the signed bytes and signature, the request's key, the serial number, version 3, the names of template and parent, the validity rounded down to seconds, the template's extensions with their values, the authority key id of the parent (or of the template if the names coincide or the parent has none), and the critical extensions that are unknown as unhandled.", "quantifier": "every template in range, parent, request with a valid key, CA key, user id and random tape", "why_tests_cant": "the whole space of templates; the parser must undo every optional field", "anchors": ["sm2/cert/gmx509.go: CreateCertificateInfo, IssueCertificateBySoftCAKey, CreateCertificate, ParseCertificate"]}
{"id": "C81", "title": "A created request reads back and verifies", "statement": "If creating a certificate request succeeds, the result parses; its signed part, subject and key are those given, its signature verifies when the key belongs to the signer, and its extensions are those already asked for by the template's attributes followed by the template's subject alternative names and extra extensions, never marked critical, where types the attributes already have are left out. With no attributes in the template the alternative names read back too. Creating it may extend the template's attributes; creating it again from the changed template asks for the same extensions.", "quantifier": "every template in range, key on the curve, signing key, user id and random tape", "why_tests_cant": "unbounded templates; the attribute merging has many cases", "anchors": ["sm2/cert/gmx509.go: CreateCertificateRequest, ParseCertificateRequest, newRawAttributes, parseRawAttributes, parseCSRExtensions"]}
{"id": "C82", "title": "What verifying a request establishes", "statement": "Verifying an encoded certificate request never panics: it fails exactly when the request does not parse, and otherwise accepts exactly when the signature consists of two DER integers that satisfy the SM2 verification equation for the key in the request, which is on the curve, and for the bytes of the first element. Algorithm parameters and bytes after the signature do not influence the verdict, so an accepted request can be changed into another accepted one. Verifying a request value whose key is not an SM2 key panics.", "quantifier": "every byte string and user id", "why_tests_cant": "all byte strings; tests cannot show that a verdict ignores bytes or that nothing else is accepted", "anchors": ["sm2/cert/gmx509.go: VerifyDERCSRSign, VerifyCSRSign, ParseCertificateRequest"]}
{"id": "C83", "title": "Parsing certificates and requests is total", "statement": "Parsing any byte string as a certificate or as a certificate request returns a value or an error; it never panics.", "quantifier": "every byte string", "why_tests_cant": "a parser of attacker-controlled bytes; fuzzing samples only", "anchors": ["sm2/cert/gmx509.go: ParseCertificate, ParseCertificateRequest and everything they call"]}
{"id": "C84", "title": "GeneralizedTime in the cryptobyte builder and reader", "statement": "A time whose year, in its own zone, is 0 to 9999 is written without error and any other is refused. What is read back is the same instant to the second and the same zone offset, leaving the bytes after it, when the offset consists of whole minutes and is below 100 hours. Seconds in the offset are lost and move the instant by that many seconds; an offset of less than a minute but not zero, or of 100 hours or more, is written as something the reader refuses. The reader accepts exactly the elements whose content is the one text of such a time, and never panics.", "quantifier": "every time, every zone offset, every input of the reader", "why_tests_cant": "all instants times all offsets; the offsets that break the round trip are historical local mean times that tests do not use", "anchors": ["cryptobyte/asn1.go: AddASN1GeneralizedTime", "cryptobyte/asn1.go: ReadASN1GeneralizedTime"]}
{"id": "C85", "title": "A signature's nonce, or two signatures made from the same random bytes, determine the private key", "statement": "When signing succeeds there is a nonce, drawn from the random source just before the point at which signing left it, such that the private scalar modulo N is the only solution of a linear equation in r, s and that nonce. If the same random bytes serve two signings that consume equally many of them and return different pairs, the scalar modulo N is the only solution of a linear equation in the two pairs alone; and two messages with different digests modulo N then give different r.", "quantifier": "every private scalar, identity, message and random source", "why_tests_cant": "uniqueness of the solution holds or fails over the whole scalar range, and tests replace neither the source nor solve for the key", "anchors": ["sm2/sm2.go: SignToRS", "sm2/sm2.go: nextK"]}
{"id": "C86", "title": "How far a signature pair fixes the message and the message fixes the pair", "statement": "A pair (r, s) verifies under one public key only for messages and identities whose digests agree modulo N. For a public key made from a private scalar that is not -1 modulo N, at most four values of s verify for a given message, identity and r. For the scalar -1 modulo N the verdict does not depend on s among the values in range with r + s not zero modulo N.", "quantifier": "every public key, message, identity, r and s", "why_tests_cant": "counts accepted values over a range of 2^256; tests flip single bits", "anchors": ["sm2/sm2.go: VerifyByRS"]}
{"id": "C87", "title": "What parsing a certificate takes from where, and what it ignores", "statement": "A byte string that parses as a certificate is a SEQUENCE of RawTBSCertificate, an algorithm identifier, a bit string and possibly more bytes; RawTBSCertificate is a SEQUENCE in which RawIssuer, RawSubject and RawSubjectPublicKeyInfo follow each other in this order after version, serial number and an algorithm identifier; Version and SerialNumber are those written there and the key is a point of the curve. The result, apart from Raw and RawTBSCertificate, stays the same if the length around the version, the algorithm identifier inside the signed part, the parameters of the outer one, the bytes after the signature and, when there are extensions, the bytes after them are replaced by any others.", "quantifier": "every byte string that parses, every replacement of those parts", "why_tests_cant": "the ignored parts can hold anything; tests parse certificates made by well-behaved encoders", "anchors": ["sm2/cert/gmx509.go: ParseCertificate", "sm2/cert/gmx509.go: parseCertificate"]}
{"id": "C88", "title": "How repeated, unknown and reordered extensions combine", "statement": "A list of extensions is read exactly if each of them can be read alone. Key usage, basic constraints, key identifiers, alternative names, name constraints and policies are those of the last extension of their kind; extended key usages, information access addresses and CRL addresses collect those of all. An extension sets no field of another kind. Swapping two extensions with different identifiers changes no field. Listed as unhandled are, in order, the critical extensions of unknown kind, critical alternative names without any name, and critical name constraints that are not understood; all others are not.", "quantifier": "every list of extensions, every certificate that parses", "why_tests_cant": "all lists with repetitions and orders; tests use one extension of each kind", "anchors": ["sm2/cert/gmx509.go: parseCertificate"]}
{"id": "C89", "title": "Every valid public key has exactly one private key, and no point lies in a small subgroup", "statement": "The curve equation has exactly N-1 solutions with coordinates in range. Every valid public key other than infinity is the one computed from exactly one private scalar between 0 and N-1, which is not 0. A multiple k*Q of a valid point Q other than infinity is infinity exactly when N divides k.", "quantifier": "every point with coordinates in range that satisfies the curve equation and every non-negative k", "why_tests_cant": "the points cannot be enumerated, and tests only see public keys that were derived from a known scalar", "anchors": ["sm2/sm2.go: curve parameters", "sm2/sm2.go: CalculatePubKey", "crypto/elliptic CurveParams.ScalarMult as used by sm2/sm2.go"]}
{"id": "C90", "title": "Decrypt accepts exactly the ciphertexts that the public key can produce", "statement": "For an input shorter than 2^31 bytes Decrypt returns M exactly when the order is known, M is a non-empty byte string and there is a nonce k between 1 and N-1 for which the input is k*G, M xor KDF(k*P) and SM3(x2||M||y2) in the order asked for. The inputs accepted with result M that Encrypt can actually return for M, under some random source, are exactly those whose C2 field differs from M.", "quantifier": "every key pair, input, order, message and random source", "why_tests_cant": "an input somebody made without Encrypt is not in the range of any test that starts from Encrypt", "anchors": ["sm2/sm2.go: Encrypt", "sm2/sm2.go: Decrypt"]}
{"id": "C91", "title": "Verification accepts exactly the signatures that the private key can produce", "statement": "For a key pair whose scalar is not N-1 modulo N, VerifyByRS accepts (r, s) for an identity and message exactly when there is a random source from which SignToRS returns (r, s) for them, and the nonce behind it is unique. For the scalar N-1 SignToRS returns no signature whatever the random source, while VerifyByRS does not depend on s except that s is in range and r+s is not N.", "quantifier": "every key pair, identity, message, pair of numbers and random source", "why_tests_cant": "forged pairs outside the range of the signer cannot be enumerated, and the exceptional key is one in 2^256", "anchors": ["sm2/sm2.go: SignToRS", "sm2/sm2.go: VerifyByRS"]}
{"id": "C92", "title": "Exactly which bytes each certificate extension accepts, and what it yields", "statement": "For each kind of extension that a certificate is read for (key usage, basic constraints, alternative names, name constraints, CRL distribution points, authority key identifier, extended key usage, subject key identifier, policies, authority information access) and every value of it, reading succeeds with given fields exactly when the value is in a stated grammar: one element, nothing after it, minimal lengths, definite form; within its SEQUENCE optional fields in order, each there or followed by the header of another element; anything after the last known field ignored. The fields are the stated function of the contents. The same for distinguished names and object identifiers, whose components may have empty leading digits.", "quantifier": "every byte string as the value, every environment", "why_tests_cant": "acceptance of arbitrary bytes: the set of accepted encodings is infinite and far larger than what encoders emit", "anchors": ["sm2/cert/gmx509.go: parseCertificate", "sm2/cert/gmx509.go: parseNameConstraintsExtension", "sm2/cert/gmx509.go: parseSANExtension"]}
{"id": "C93", "title": "What attribute values in names are read as, and how strings and times are written", "statement": "A string counts as UTF-8 exactly when it is the concatenation of the shortest encodings of Unicode scalar values. A string attribute is written as PrintableString exactly when all its characters are in the X.680 set, otherwise as UTF8String if it is UTF-8, otherwise not at all. When read, the value of an attribute depends on its tag: PrintableString with * and & also allowed, NumericString, IA5String, T61String, UTF8String, INTEGER of 64 bits, BIT STRING, OBJECT IDENTIFIER, UTCTime, GeneralizedTime and OCTET STRING each with exactly the stated contents; any other element is read as nothing whatever it contains. A time field is accepted exactly in the stated forms: seconds optional in UTCTime, two-digit years 1950 to 2049, zone Z or a non-zero offset.", "quantifier": "every byte string and every attribute value", "why_tests_cant": "all byte strings; the boundary cases of UTF-8 and of the calendar are too many", "anchors": ["sm2/cert/gmx509.go: parseCertificate (names)", "sm2/cert/gmx509.go: CreateCertificate, CreateCertificateRequest (names)"]}
{"id": "C94", "title": "The exact set of byte strings that parse as a certificate, and the certificate each gives", "statement": "ParseCertificate returns the certificate x for a byte string exactly when the string is in a stated grammar (SEQUENCE of signed part, algorithm identifier and bit string, then anything; the signed part with its ten fields, of which version, the two unique identifiers and the extensions may be missing, then anything), the outer algorithm is SM2 with SM3 and the key is of type EC with the parameters SM2 and is 4, x, y of a point of the curve once the unused bits of its bit string are shifted out, issuer and subject are names, every extension has an acceptable value, and x consists of the parts: raw bytes, version plus one, serial number, names, times, signature with unused bits shifted out, extensions, their combined effect in order, and the identifiers of the critical ones not handled. Everything else is an error.", "quantifier": "every byte string and every certificate value, every environment", "why_tests_cant": "acceptance and result for all byte strings; the accepted set is infinite and larger than what encoders emit", "anchors": ["sm2/cert/gmx509.go: ParseCertificate", "sm2/cert/gmx509.go: parseCertificate", "sm2/cert/gmx509.go: parsePublicKey"]}
{"id": "C95", "title": "The exact set of byte strings that parse as a certificate request, and the request each gives", "statement": "ParseCertificateRequest returns the request x for a byte string exactly when the string is in a stated grammar (version, subject, key and attributes tagged [0], all required; algorithm identifier, bit string, then anything), algorithms and key are acceptable as for certificates, the subject is a name, every attribute named extensionRequest that has at least one value has a list of extensions as its first value, every alternative names extension among these is readable, and x consists of the parts: attributes of the form OID and SET of SEQUENCEs of types with values in order and no others, the requested extensions in order, and the names of the last alternative names extension.", "quantifier": "every byte string and every request value, every environment", "why_tests_cant": "acceptance and result for all byte strings", "anchors": ["sm2/cert/gmx509.go: ParseCertificateRequest", "sm2/cert/gmx509.go: parseCertificateRequest", "sm2/cert/gmx509.go: parseRawAttributes", "sm2/cert/gmx509.go: parseCSRExtensions"]}
{"id": "C96", "title": "The public key (0,0): anybody can sign for it and read what is encrypted to it", "statement": "RawBytesToPublicKey accepts 64 zero bytes; CalculatePubKey gives the same key exactly for the private scalars that N divides. For this key and every identity and message, one of the four values 1, 2, N-1, N-2 of s together with r = (e + x(s*G)) mod N, all public data, is accepted by VerifyByRS. A ciphertext that Encrypt returns for this key is the message xor a fixed key stream, KDF of 64 zero bytes, and Decrypt with the scalar 0 returns the message.", "quantifier": "every identity, message, order value and random tape", "why_tests_cant": "a forgery exists for every message, which needs the group law and a case distinction, not samples", "anchors": ["sm2/sm2.go: RawBytesToPublicKey", "sm2/sm2.go: CalculatePubKey", "sm2/sm2.go: VerifyByRS", "sm2/sm2.go: Encrypt"]}
{"id": "C97", "title": "Public keys off the curve are computed with on another curve", "statement": "For every pair of coordinates (x,y) for which the curve y^2 = x^3 - 3x + b' through it is not singular, scalar multiplication is multiplication in the group of that curve. Hence if n*(x,y) is infinity there, a message that Encrypt encrypts to the key (x,y) is one of n strings that can be computed from the ciphertext, and a pair (r,s) with n dividing t = (r+s) mod N is accepted by VerifyByRS exactly when r,s are in range, t is not 0 and r = (e + x(s*G)) mod N, which does not involve the key. For y = 0 all even multiples are infinity: there are two possible key streams.", "quantifier": "every pair of coordinates (also of the curve itself) except on the two singular curves, every message, identity, order and tape", "why_tests_cant": "the group of an arbitrary other curve, all scalars", "anchors": ["sm2/sm2.go: RawBytesToPublicKey", "sm2/sm2.go: VerifyByRS", "sm2/sm2.go: Encrypt", "sm2/sm2.go: kdf"]}
{"id": "C98", "title": "Every history of Write, Sum and Reset on one digest", "statement": "What a digest made by New does under any sequence of Write, Sum and Reset is given by a three-part abstract session: the chain value, the number of bytes counted, and the pending bytes of the current block. The outputs of all Sum calls are those of the session, and the sequence panics exactly when the session refuses a write. This covers what a Write after a Sum, or a second Sum, yields.", "quantifier": "every finite sequence of calls with byte arguments", "why_tests_cant": "unbounded sequences of calls with arbitrary arguments, also misuse after Sum", "anchors": ["sm3/sm3.go: New, Write, Sum, Reset, finish, checkSum, processWord"]}
{"id": "C99", "title": "Length extension: a digest can be continued without the message", "statement": "From the digest and the length of a message alone, and any suffix, one can compute the digest of message, closing bytes and suffix. Hence a code Sum(secret || m) is forged for m, closing bytes and suffix knowing only the length of the secret.", "quantifier": "every non-empty message and every suffix for which the whole stays below 2^31 bytes", "why_tests_cant": "all messages, all suffixes", "anchors": ["sm3/sm3.go: Sum"]}
{"id": "C100", "title": "A collision of Sum gives a collision of the compression function", "statement": "If Sum gives the same digest for two different messages then among the compression steps of the two computations there are two with different inputs and the same output.", "quantifier": "every pair of different byte strings on which Sum does not panic", "why_tests_cant": "no collision is known; the reduction holds for all pairs", "anchors": ["sm3/sm3.go: Sum, processBlock, finish"]}
{"id": "C101", "title": "What SM4 ECB and CBC reveal and what changing a ciphertext does", "statement": "In ECB two ciphertext blocks under one key are equal exactly when the plaintext blocks are. In CBC two ciphertext blocks are equal exactly when the xor of the plaintext blocks is the xor of the preceding ciphertext blocks (or IVs), and with the same IV the first n ciphertext blocks agree exactly when the first n plaintext blocks do. Changing the IV by d changes the first plaintext block by d and nothing else; changing ciphertext block i by d changes block i+1 by d and no block other than i and i+1. When CBCDecrypt is followed by PKCS5UnPadding, the length of the result tells the last plaintext byte, and which IVs make it panic determines the last byte of every decryption of a block.", "quantifier": "every 16-byte key, IV, plaintext, ciphertext and change", "why_tests_cant": "equivalences over all pairs of messages and all changes", "anchors": ["sm4/sm4.go: ECBEncrypt, CBCEncrypt, CBCDecrypt", "util/padding.go: PKCS5UnPadding"]}
{"id": "C102", "title": "Keys, ciphertexts and signatures are exactly uniform over the random source", "statement": "For every number n of random bytes: every private scalar from 0 to N-1 is returned by GenerateKey on the same number of the 256^n random strings, and on at least one if n >= 32. For a fixed public key, message and order, all ciphertexts that Encrypt can return at all are returned on the same number of random strings. For a fixed private key, identity and message, all pairs that SignToRS can return at all are returned on the same number of random strings.", "quantifier": "every length of the random string, every pair of scalars, possible ciphertexts and possible signatures", "why_tests_cant": "counting over 256^n random strings", "anchors": ["sm2/sm2.go: GenerateKey, Encrypt, SignToRS, nextK"]}
{"id": "C103", "title": "SM2 functions leave the integers and slices they are given alone and return new ones", "statement": "Signing, verifying, encrypting, decrypting, making keys (generated, from bytes, public from private), the shared point of the key exchange and the integer helpers of util change no big.Int and no byte slice that existed before the call, whether they return or panic: not the caller's key, message, identity or signature integers, nor the package's curve constants, cofactor and default identity. Integers and slices they return are newly allocated, except that keys share the curve's integers. This holds however the arguments overlap (the same slice as message and identity, the same integer as r and s, a message with spare capacity), and the results are those the functions have on unshared values.", "quantifier": "every state of memory, every choice of possibly shared arguments, every random source", "why_tests_cant": "all ways in which pointers and slices may be shared, and all executions including those that panic or retry", "anchors": ["sm2/sm2.go: GenerateKey, RawBytesToPublicKey, RawBytesToPrivateKey, CalculatePubKey, kdf, Encrypt, Decrypt, calculateE, SignToRS, VerifyByRS", "sm2/keyexchange.go: reduce, calculateU", "util/bigint.go", "util/ec.go"]}
{"id": "C104", "title": "Random bytes that are used twice or known open SM2 ciphertexts", "statement": "Encrypting two messages of equal length for one key with the same random bytes: both succeed or neither does, both use up the same random bytes, the ciphertexts start with the same 65 bytes and the exclusive or of their masked parts is that of the messages. Whenever two ciphertexts for one key start with the same 65 bytes, whatever the lengths, orders and random bytes, the masked parts differ as the messages do as far as the shorter goes. One 32-byte block of the random bytes always is a number k whose multiple of the base point is in those 65 bytes, and with any such number the message can be read with the public key alone.", "quantifier": "every valid public key, all messages, orders and random sources", "why_tests_cant": "relation between pairs of executions over all keys, messages and random strings", "anchors": ["sm2/sm2.go: Encrypt, kdf, nextK, notEncrypted"]}
{"id": "C105", "title": "The hash part of an SM2 ciphertext binds everything else", "statement": "If one private key accepts two ciphertexts (in either order) with the same 32-byte hash part, then both start with the same 65 bytes, have the same masked part and give the same message; or else the two different strings that were hashed, which contain the two messages, have the same sm3.Sum. In particular a changed ciphertext with unchanged hash part is accepted only with such an explicit collision.", "quantifier": "every private key not divisible by N, all pairs of byte strings", "why_tests_cant": "quantifies over all pairs of ciphertexts, most of which cannot be found by trying", "anchors": ["sm2/sm2.go: Decrypt"]}
{"id": "C106", "title": "An accepted confirmation tag of the key exchange binds both sides", "statement": "If the initiator accepts the tag of a responder, whatever keys, points and identities the two were given, then the second coordinates of their shared points and the concatenations of everything hashed besides are the same, or two corresponding hashed strings are different with the same SM3 value. If no hashed coordinate starts with a zero byte, the two sides then agree on both identities, on all four public keys (each side has the public keys belonging to the other side's private ones), on the second tag and on the key as far as both asked for it. The same follows for a responder that finds the initiator's second tag equal to its own.", "quantifier": "all pairs of calls with points on the curve, arbitrary private scalars, identities, key lengths", "why_tests_cant": "pairs of executions with unrelated arguments; equality of hashes cannot be brought about by trying", "anchors": ["sm2/keyexchange.go: CalculateKeyWithConfirmation, calculateInnerHash, s1, s2, ResponderConfirm"]}
{"id": "C107", "title": "Exactly which templates give a certificate or a request", "statement": "The contents of a certificate can be made exactly if the template has a serial number; parent and template have raw subjects or names whose strings are UTF-8 (strings replaced by an extra name do not matter) and whose extra names have valid types and values; extended key usages are known and further usages, policies and constraint names can be written, unless an extra extension of that kind replaces them; the extra extensions have valid identifiers; the request holds one well-formed key; and both times are in the years 0 to 9999 UTC. With an unknown usage to be written, a serial number and good subjects it panics, in all other cases there is an error. Issuing made contents fails or panics only as signing does. A request is refused, with no random byte used, exactly if its subject, an attribute or the identifier of an extra extension cannot be written; otherwise the outcome is that of signing.", "quantifier": "every template, parent, request, key, user id and random source (sizes below 2^31)", "why_tests_cant": "an exact characterisation over unbounded structures, with many fields whose failures mask one another", "anchors": ["sm2/cert/gmx509.go: CreateCertificateInfo, buildExtensions, marshalNameConstraints, IssueCertificateBySoftCAKey, CreateCertificateRequest, newRawAttributes"]}
{"id": "C108", "title": "What of a request arrives in the certificate", "statement": "For every request that parses, put by FillCertificateTemplateByCSR into any template without raw subject bytes, issued and parsed again: the certificate has the request's public key bit for bit, the nine named fields of its subject, and its alternative names (IPv4 addresses in four bytes). Subject attributes of any other type are gone, no requested extension other than alternative names is there unless the template asks for that kind itself, and the template's own ExtraExtensions are gone too. Serial number, issuer, validity in seconds are the authority's, and the signature is the authority's over exactly the contents. For a request made from a template this composes to: the request verifies, the certificate verifies with the authority's public key, and key, subject fields and alternative names are those of the request's template.", "quantifier": "every request template, request, certificate template, parent, key pair, user id and random source (sizes below 2^31); every URL implementation whose printing can be parsed again", "why_tests_cant": "a composition of six functions over unbounded structures; what silently disappears is visible only by comparing all fields", "anchors": ["sm2/cert/gmx509.go: CreateCertificateRequest, ParseCertificateRequest, VerifyDERCSRSign, FillCertificateTemplateByCSR, CreateCertificateInfo, IssueCertificateBySoftCAKey, ParseCertificate"]}
{"id": "C109", "title": "Which of the caller's memory CreateCertificateRequest writes", "statement": "The call writes at most one slice header of the template (the first value of its first extension request attribute that has a value) and the cells behind that value up to its capacity; every other cell that existed before the call keeps its content and every array its length, also when there is an error. Nothing at all is written if no attribute is an extension request with a value. If the capacity allows it, the cells behind the value are overwritten whoever uses them. If no other attribute shares the value's cell and none is read from the cells that get written, the outcome and the template's attributes afterwards are the same as if attributes were copied values. Without that condition this is false: two attributes that share one value both get the extensions in the request.", "quantifier": "every memory layout of the template's attributes (arrays, offsets, lengths, capacities, sharing), every template, key, user id, random source and growth policy of append", "why_tests_cant": "depends on capacities and sharing between slices, unbounded combinations", "anchors": ["sm2/cert/gmx509.go: CreateCertificateRequest (lines 99-155)"]}
{"id": "C110", "title": "However a random reader cuts its bytes, SM2 does the same", "statement": "For any io.Reader (pieces of any size, empty pieces, an error together with the last bytes or after them), GenerateKey, Encrypt, SignToRS and Sign do what they do when the same bytes come in full buffers: the same key, ciphertext or signature, the same panic, and after a success the reader still has exactly the bytes that were not needed. If the bytes run out, the error is the reader's own, and an end of file in the middle of a 32-byte draw becomes an unexpected end of file. Two readers of the same bytes thus give the same results. The calls need not return: GenerateKey does not for some reader that always fills the buffer, and none of them does for a reader that keeps delivering nothing without an error.", "quantifier": "every reader with any state, every byte sequence and way of cutting it, every final error, all keys, messages, ids and orders", "why_tests_cant": "infinitely many readers; non-termination cannot be observed", "anchors": ["sm2/sm2.go: GenerateKey, nextK, Encrypt, SignToRS, Sign"]}
{"id": "C111", "title": "SM2 calls may run at the same time on shared keys", "statement": "Any number of goroutines, each making one call of GenerateKey, CalculatePubKey, RawBytesToPublicKey, RawBytesToPrivateKey, Encrypt, Decrypt, SignToRS, VerifyByRS or computing the shared point of the key exchange, may run at the same time on keys, messages, ids and signatures that they share in any way, without locks. Two of them never touch the same integer or byte buffer with one of them writing, so there is no data race. In every interleaving each call that has finished has exactly the outcome it has when it runs alone (for sign, verify, encrypt, decrypt: that of the function on values), and that stays so while others go on; at every moment all that was in memory before is unchanged; and no call waits for another: a number of turns that depends on the call alone is enough to finish.", "quantifier": "every number and mix of calls, every sharing between their arguments, every schedule, every moment of it, all contents of memory, all random bytes", "why_tests_cant": "the interleavings of single memory accesses are astronomically many and a race need not show in any run", "anchors": ["sm2/sm2.go: GenerateKey, CalculatePubKey, Encrypt, Decrypt, SignToRS, VerifyByRS", "sm2/keyexchange.go: calculateU", "util/bigint.go"]}
{"id": "C112", "title": "SM4 ciphers may be shared between goroutines, SM3 digests may not", "statement": "Any number of goroutines may make any calls of sm4.NewCipher, Encrypt, Decrypt, ECBEncrypt, ECBDecrypt, sm3.New, Reset, Write, Sum and the package function sm3.Sum at the same time, provided that none passes as an output (the first 16 bytes of dst, a digest, the spare capacity behind the argument of Sum) memory that another passes in any role. A cipher is never written after NewCipher, so one cipher may be used by all of them. Then no two of them touch the same cell with one writing; each has at its end the answers it has when it runs alone, whatever the schedule; it ends within as many turns as alone; and memory that nobody passed as output is unchanged. Hence all blocks encrypted with one shared cipher come out as the standard SM4 of their inputs, ECB and NewCipher likewise, and a goroutine that makes its own digest, writes pieces that others may be reading, and sums, gets the standard SM3 of the pieces. Sharing a digest is not safe: with two Writes of a byte both report success and one byte is lost, so that the sum is the hash of neither order; from another state one of two Writes panics with an index out of range, though neither order panics; and two concurrent calls of Sum write the same memory.", "quantifier": "every number of goroutines, all lists of calls, every schedule of single memory accesses, all contents of memory; the last sentence gives one witness each", "why_tests_cant": "no test run covers the interleavings of single accesses, and a lost byte needs an unlikely one", "anchors": ["sm4/sm4.go: NewCipher, Encrypt, Decrypt, ECBEncrypt, ECBDecrypt, expandKey, processBlock", "sm3/sm3.go: New, Reset, Write, Sum, finish, checkSum, processBlock, processWord"]}
{"id": "C113", "title": "Builders and the memory behind them", "statement": "With Builders as objects on slices that append may move, whatever capacity append chooses: (1) any program of calls on a Builder and its open children, with panics, behaves as on one buffer (C26-C30): it panics alike, or Bytes has the same bytes or the same error; the bytes are in the buffer given to NewBuilder if they fit into its capacity, and else in new memory; with NewFixedBuilder they are always in the buffer given. (2) Of the memory that existed before, calls on a Builder change nothing but the spare capacity behind the bytes in its buffer, and no other Builder, even if they use children whose continuation has returned, and panic and recover. (3) So what Bytes has returned keeps its content whatever is written later, and two Builders whose memory does not overlap do not disturb each other. (4) But: two Builders on one buffer overwrite each other's bytes without an error; writing to a child after its continuation has returned overwrites bytes of its parent without an error; a continuation that panics with a BuildError holding nil takes away an error recorded before; and panic(nil) in a continuation is taken for a return.", "quantifier": "all heaps, buffers and capacities, every growth policy of append, all trees of calls of any depth; (4) gives one witness each", "why_tests_cant": "where bytes end up depends on capacities and on when append moves them, for unbounded trees of calls", "anchors": ["cryptobyte/builder.go: NewBuilder, NewFixedBuilder, Bytes, callContinuation, addLengthPrefixed, flushChild, add, AddBytes, AddValue", "cryptobyte/asn1.go: AddASN1"]}
{"id": "C114", "title": "cryptobyte Strings and the memory behind them", "statement": "With Strings and byte slices as variables that hold windows of arrays, and s and out given as variables that may be the same: (1) every reading method of String does to contents what it does as a function of contents (C18-C24, C84), panics included; it changes no byte of memory and no variable but *s and *out; what is left in *s is the end of what was there, and what is stored in *out is a window of it that ends where the rest starts, with a capacity as far as that of *s. (2) Over any sequence of calls on one String all stored windows lie behind each other, so no two of them share a byte, nor with what is left; a write within one is seen in no other. (3) But appending to a stored window, by no more bytes than are left, allocates nothing and overwrites what is left to read. (4) CopyBytes fills out with the next bytes and changes no other byte, also if out lies in the String; what is left is then as in the function of contents only if it does not overlap out. (5) With out the same variable as s, a ReadASN1 that returns false because of the tag leaves the contents of the element in s.", "quantifier": "all memories, windows, capacities, variables, all 27 calls with all arguments, all sequences of calls, all appended bytes", "why_tests_cant": "sharing of memory depends on offsets and capacities that comparing results does not show, over sequences of unbounded length", "anchors": ["cryptobyte/string.go: all methods", "cryptobyte/asn1.go: ReadASN1, ReadASN1Element, ReadAnyASN1, ReadAnyASN1Element, ReadASN1Bytes, ReadASN1Boolean, ReadASN1Integer, ReadASN1Enum, ReadASN1ObjectIdentifier, ReadASN1GeneralizedTime, ReadASN1BitString, ReadASN1BitStringAsBytes, PeekASN1Tag, SkipASN1, ReadOptionalASN1, SkipOptionalASN1, ReadOptionalASN1Integer, ReadOptionalASN1OctetString, ReadOptionalASN1Boolean, readASN1"]}
{"id": "C115", "title": "DER readers and ParseCertificate where int has 32 bits", "statement": "On a platform where int has 32 bits: (1) a String that starts with a low tag, the length byte 0x84 and a four-byte length such that header and contents are said to have at least 2^31 and fewer than 2^32 bytes makes every ASN.1 reader of cryptobyte panic with a slice bound out of range; on 64 bits the readers report failure and leave everything unchanged. (2) On every other String that fits the memory of such a platform the readers do what they do on 64 bits, except that ReadASN1Enum fails if the value does not fit an int32, and the length of a bit string is taken modulo 2^32. (3) The readers of optional elements with an element inside either panic, and then they fail on 64 bits, or give the 64-bit result. (4) ParseCertificate on arbitrary bytes: the only panic is that slice bound, and then the 64-bit parser returns an error; a certificate it accepts is accepted on 64 bits with the same fields, the version reduced to an int32; a certificate accepted on 64 bits whose version and path lengths fit is accepted with the same fields. (5) A name-constraints extension whose value starts with such a header makes it panic, whatever follows; so ParseCertificate is not total on 32 bits (refuted by a concrete certificate), although it is on 64 bits (C83).", "quantifier": "all byte strings below 2^31 bytes, all tags and integer kinds, all certificates in DER or not, all lists of extensions, all answers of the URL and IP parsers", "why_tests_cant": "the tests run on one width; the result is about all inputs on both", "anchors": ["cryptobyte/asn1.go:724 readASN1", "cryptobyte/string.go:26 read", "sm2/cert/gmx509.go:1299 parseNameConstraintsExtension", "sm2/cert/gmx509.go:1058 ParseCertificate"]}
{"id": "C116", "title": "Identifier octets of the universal types, and an optional BOOLEAN that is absent", "statement": "What cryptobyte writes and reads carries the tag numbers of X.680: the Builder writes BOOLEAN as 1, INTEGER as 2 (from int64, uint64 and big.Int), BIT STRING as 3, OCTET STRING as 4, NULL as the two octets 5 0, OBJECT IDENTIFIER as 6, ENUMERATED as 10 and GeneralizedTime as 24, followed by the minimal length and the contents; a reader of one of these types yields a value only if the next octet is that number (2, 3, 6, 10, 24; 4 inside an optional octet string). An optional BOOLEAN whose next octet is not 1, or where nothing is left, is the default and consumes nothing. (ReadASN1Boolean is the exception of C37.)", "quantifier": "all values the writers accept, all Builder contents, all input Strings, all integer kinds, both defaults", "why_tests_cant": "a round trip through writer and reader passes with any tag number used on both sides, and the values and inputs are unbounded", "anchors": ["cryptobyte/asn1/asn1.go:29", "cryptobyte/asn1.go:22 AddASN1Int64", "cryptobyte/asn1.go:454 ReadASN1BitString", "cryptobyte/asn1.go:647 ReadOptionalASN1Boolean"]}
{"id": "C117", "title": "What of a parsed certificate or request is still the caller's buffer", "statement": "ParseCertificateRequest and ParseCertificate return structures of which these parts are slices of the input: Raw, RawTBSCertificate(Request), RawSubjectPublicKeyInfo, RawSubject, RawIssuer, the signature (unless its bit string has unused bits, in which case it is a shifted copy), and the octet strings and bit strings among the values of Names and of a request's Attributes. All of them lie in the slice passed; key and names lie in the signed part, the signature after it, values of Names in the encoded name. If the buffer is overwritten later these parts show the new bytes at the old places, and everything else (public key, version, serial, names as strings, times, extensions, alternative names and the fields decoded from extensions) stays as parsed; bytes outside the slice never matter. Consequently VerifyCSRSign after an overwrite checks the new bytes against the old key, and CreateCertificateInfo certifies the key that stands in the buffer when it is called: if the buffer then holds a second request of the same layout the certificate is for the second key, although the request still shows the first (witness given).", "quantifier": "all buffers, all slices of them, all contents before and after, all parsed requests and certificates, all templates and parents", "why_tests_cant": "tests parse constant inputs that nothing writes to afterwards; which parts alias the buffer is invisible until a buffer is reused, and depends on every type in the input", "anchors": ["sm2/cert/gmx509.go:275 ParseCertificateRequest", "sm2/cert/gmx509.go:288 parseCertificateRequest", "sm2/cert/gmx509.go:536 VerifyCSRSign", "sm2/cert/gmx509.go:985 CreateCertificateInfo", "sm2/cert/gmx509.go:1058 ParseCertificate", "sm2/cert/gmx509.go:1071 parseCertificate"]}
{"id": "C118", "title": "The two DER readers agree", "statement": "The vendored cryptobyte and encoding/asn1, both of which are applied to the same certificate, accept the same encodings and read the same values, for inputs shorter than 2^31 bytes: any element with tag number at most 30 (same element, same rest, cryptobyte's tag octet is class, constructed bit and number of the RawValue), INTEGER as big integer and as int64, BIT STRING, OCTET STRING, GeneralizedTime. They differ in exactly these places: an object identifier is read by cryptobyte iff it is read by encoding/asn1 and no four consecutive octets of its contents are 0x80 or more; tag numbers above 30 are read by encoding/asn1 only; encoding/asn1 also takes a UTCTime where a time is expected; and ReadASN1Boolean accepts after the tag of INTEGER what encoding/asn1 accepts after the tag of BOOLEAN and never accepts a BOOLEAN. A witness is given for each difference.", "quantifier": "all byte strings shorter than 2^31", "why_tests_cant": "agreement of two parsers is a statement about all inputs; a sampled disagreement needs a malformed encoding that one of them lets through", "anchors": ["sm2/cert/gmx509.go:1299 parseNameConstraintsExtension", "cryptobyte/asn1.go:537 ReadAnyASN1Element", "cryptobyte/asn1.go:250 ReadASN1Integer", "cryptobyte/asn1.go:454 ReadASN1BitString", "cryptobyte/asn1.go:396 ReadASN1ObjectIdentifier", "cryptobyte/asn1.go:227 ReadASN1Boolean", "cryptobyte/asn1.go:435 ReadASN1GeneralizedTime"]}
{"id": "C119", "title": "The two DER writers agree", "statement": "For one value the Builder's own method and MarshalASN1 (which calls encoding/asn1) leave the same bytes or both leave an error: int64, uint64, big integers other than -1, octet strings, bit strings of whole octets, booleans, object identifiers without negative arcs (including those that are refused and those whose first two arcs overflow an int), and times outside the years 1950-2049 whose zone is UTC or at least a minute and less than a hundred hours away. They differ here: for -1 AddASN1BigInt panics while Marshal writes 02 01 FF; for negative arcs the Builder always refuses while Marshal drops the arc and so writes the encoding of another identifier; for 1950-2049 Marshal writes a UTCTime; for zones within a minute of UTC Marshal writes Z and the Builder +0000 or -0000 (witness). On any Builder MarshalASN1 is AddBytes of the encoding, records an error only if there is none yet, while AddValue's error replaces the earlier one. BytesOrPanic returns what Bytes returns and panics exactly when Bytes reports an error, with that error.", "quantifier": "all values of each type with encodings below 2^32 bytes, all Builder contents", "why_tests_cant": "agreement of two encoders is a statement about all values; the disagreements sit at single values (-1), at negative arcs and in the zone of a time", "anchors": ["cryptobyte/asn1.go:22 AddASN1Int64", "cryptobyte/asn1.go:46 AddASN1Uint64", "cryptobyte/asn1.go:61 AddASN1BigInt", "cryptobyte/asn1.go:104 AddASN1GeneralizedTime", "cryptobyte/asn1.go:162 AddASN1ObjectIdentifier", "cryptobyte/asn1.go:192 MarshalASN1", "cryptobyte/builder.go:64 BytesOrPanic", "cryptobyte/builder.go:304 AddValue"]}
{"id": "C120", "title": "When the key exchange panics, and peers that always make it panic", "statement": "For supported key lengths, peer keys that are on the curve or (0,0), and a tag that is not nil for the initiator: CalculateKeyWithConfirmation panics exactly when the caller's own two keys cancel (d + xbar*r divisible by the group order), or the peer's two keys cancel (P + xbar*R is infinity), or the shared point is a finite point with x = 0, or one of the two ephemeral keys has x = 0. A peer makes every call of every caller panic exactly if its ephemeral key has x = 0 or its two keys cancel. Every ephemeral key other than (0,0) has exactly one static key that cancels it; this is a finite point of the curve, computable from the ephemeral public key alone, and the owner of the ephemeral private key r has its private key -xbar*r mod n, which lies in 1..n-1.", "quantifier": "all valid peer keys, all own keys, identities, roles, key lengths from -14 to 128 bits", "why_tests_cant": "random keys cancel with probability 2^-256; that these are the only poisonous peers is a statement about all callers", "anchors": ["sm2/keyexchange.go:28 calculateU", "sm2/keyexchange.go:45 kdfForExch", "sm2/keyexchange.go:76 calculateInnerHash", "sm2/keyexchange.go:104 CalculateKeyWithConfirmation", "sm3/sm3.go:88 Write"]}
{"id": "C121", "title": "The texts that the SM3 and SM4 packages produce", "statement": "The error of sm4.NewCipher for a key of another length than 16 has the text \"sm4: invalid key size \" followed by that length in decimal digits without leading zeros; two such errors have the same text exactly if the keys are equally long. sm3.PrintT prints one line: in braces, separated by comma and space, 64 numbers of eight upper-case hexadecimal digits after 0x; the j-th is the standard's constant T_j rotated left by j mod 32 and equals the constant that round j of the compression function adds.", "quantifier": "all key lengths other than 16; all 64 rounds; all 32-bit values for the number format", "why_tests_cant": "the number in the text is claimed for every length; the printed table is only of use if every entry agrees with the one in the code", "anchors": ["sm4/sm4.go:66 KeySizeError", "sm4/sm4.go:77 NewCipher", "sm3/sm3.go:282 PrintT", "sm3/sm3.go:15 gT"]}
{"id": "C122", "title": "The key exchange leaves its arguments alone and returns slices of its own, also among concurrent calls", "statement": "A call of CalculateKeyWithConfirmation changes no integer and no byte that existed before it, whatever the keys, ids and tag share with each other or with the package's own variables, and also if it panics or returns an error. Its outcome is a function of the values of its arguments. The key, S1 and S2 are in new buffers, three different ones, with no spare capacity. ResponderConfirm only reads. When such calls run at the same time as each other and as any other SM2 calls on the same memory, under any interleaving, a finished one has exactly the outcome it has alone.", "quantifier": "all states of memory, all ways of sharing between arguments, all values of keys, ids, tags and key lengths, all lists of concurrent calls and all schedules", "why_tests_cant": "aliasing between arguments and interleavings of goroutines cannot be enumerated; a write into a shared integer shows only under particular schedules", "anchors": ["sm2/keyexchange.go:107 CalculateKeyWithConfirmation", "sm2/keyexchange.go:46 kdfForExch", "sm2/keyexchange.go:146 ResponderConfirm", "util/bigint.go:5 Add"]}
{"id": "C123", "title": "What a certificate info shares with its template, parent, request and the package, and what later changes do", "statement": "CreateCertificateInfo changes nothing that existed before it, and its outcome depends only on the contents of its arguments. The info's serial number is the template's own big.Int; its issuer and subject are the parent's and template's RawSubject where those are not empty; its key is part of the request's RawSubjectPublicKeyInfo; its extra extensions are the template's; the signature algorithm's identifier and the identifiers of the other extensions are the package's own variables; Raw and the values of the other extensions are new arrays, each its own. As long as Raw's array and the package's signature identifier are left alone, a certificate issued from the info is the one it stood for when it was made, whatever else is changed: a serial number counted up for the next certificate shows in the info but not in its certificate. A caller who writes to the identifier in the info's SignatureAlgorithm writes to the package: every certificate issued afterwards, from any info, names that algorithm and is refused by an intact ParseCertificate. Likewise the identifiers of later extensions can be changed through the identifiers in an info.", "quantifier": "all memories, all templates, parents and requests however they share arrays, all later states of the memory, all signatures, keys and ids", "why_tests_cant": "which arrays are shared shows only if a test changes exactly those afterwards; no finite set of later changes covers all memories", "anchors": ["sm2/cert/gmx509.go:985 CreateCertificateInfo", "sm2/cert/gmx509.go:691 buildExtensions", "sm2/cert/gmx509.go:553 subjectBytes", "sm2/cert/gmx509.go:1046 CreateCertificate", "sm2/cert/gmx509.go:26 oidSignatureSM3WithSM2"]}
{"id": "C124", "title": "An unknown ciphertext order: what is done before it is noticed, and the text of the error", "statement": "With an order other than C1C2C3 (1) and C1C3C2 (2), Encrypt does everything it would do with a known one - it takes the same random bytes and fails or panics in the same cases - and only then answers with an error. Decrypt answers with the error exactly for the ciphertexts that begin with a curve point and have at least 97 bytes, before anything is decrypted or compared, and otherwise panics as it does with order 1. MarshalCipher panics for fewer than 97 bytes and otherwise returns the error; UnmarshalCipher always returns it. The text is 'unknown cipherTextType:' followed by the one Unicode character whose number the order is, not by its digits: it is always valid UTF-8, orders that are no characters (negative, surrogates, above 0x10ffff) are all shown as U+FFFD, and two orders have the same text exactly when they stand for the same character.", "quantifier": "all orders other than 1 and 2, all keys, messages, tapes of random bytes and ciphertexts", "why_tests_cant": "orders are 32-bit numbers and ciphertexts arbitrary bytes; a test sees a few of them", "anchors": ["sm2/sm2.go:262 Encrypt", "sm2/sm2.go:308 Decrypt", "sm2/sm2.go:348 MarshalCipher", "sm2/sm2.go:387 UnmarshalCipher"]}
{"id": "C125", "title": "CBC and padding in goroutines: shared keys, ivs and messages are safe; padding needs what lies behind the message to itself", "statement": "Goroutines may at the same time make SM4 ciphers, encrypt and decrypt in ECB and CBC mode, hash, pad and unpad, with keys, ivs and messages shared at will: if no goroutine pads into spare capacity, or encrypts or writes to what another uses, then under every interleaving there is no data race, every call answers what it answers alone, nothing existing before is changed except where a call is documented to write, and each goroutine ends. CBC results are the standard's, in a new array. Padding appends 1 to blockSize equal bytes to the next multiple, in the caller's array exactly if its capacity suffices, else in a new one; so messages with no spare capacity are never written. A goroutine that pads and encrypts such a message, and one that decrypts and unpads, give the message back whatever the others do. It is false that padding leaves other messages alone: padding a slice whose spare capacity is another message destroys that one, and a second goroutine that pads the other message at that time can get half of each.", "quantifier": "all memories, all sets of goroutines with any calls that keep apart, all interleavings, all keys, ivs, messages, block sizes, lengths and capacities", "why_tests_cant": "the number of interleavings of the accesses is astronomical, and a race detector sees only the one that happens", "anchors": ["sm4/sm4.go:264 CBCEncrypt", "sm4/sm4.go:282 CBCDecrypt", "util/padding.go:5 PKCS5Padding", "util/padding.go:11 PKCS5UnPadding", "util/padding.go:17 ZeroPadding", "util/padding.go:26 UnZeroPadding"]}
{"id": "C126", "title": "Keys with missing parts: which fields each SM2 call needs, and what happens without them", "statement": "Key structs can be filled in by hand, with nil for the pointer, the coordinates, the private number, the curve parameters or the coefficient a. Signing needs all of a private key, decrypting and deriving the public key do not need a. Verifying needs all of a public key, encrypting does not need a, and the byte forms need the numbers only. In the key exchange the own static key must be whole, the own ephemeral key may lack a, and of the other side's keys only the coordinates count. With the parts needed the result is that for a key made by the package. Without them the call panics, for every message, order, id and random input, with these exceptions: verifying returns false if the signature is not DER or r is below 1, whatever the key, even nil, and, once the parameters are there, for any r or s out of range; encrypting with the parameters but without a point first draws a random number and returns its error; an initiator without a tag gets its error. In particular nothing is ever accepted with an incomplete key, and nothing signed. Encoding a signature with a nil number is an error.", "quantifier": "all keys with any of their pointers nil, all messages, ciphertexts, ids, signatures, tags and random inputs", "why_tests_cant": "it ranges over every combination of missing fields together with every input of each call", "anchors": ["sm2/sm2.go:43 P256V1Curve", "sm2/sm2.go:48 PublicKey", "sm2/sm2.go:53 PrivateKey", "sm2/sm2.go:262 Encrypt", "sm2/sm2.go:308 Decrypt", "sm2/sm2.go:488 SignToRS", "sm2/sm2.go:543 VerifyByRS", "sm2/keyexchange.go:105 CalculateKeyWithConfirmation"]}
{"id": "C127", "title": "All keys share one curve object: writing through any key's curve changes every key", "statement": "Every key the package makes, generated, read from bytes or derived, holds in its Curve field the pointers of the package's own curve, and GetSm2P256V1 returns the same ones. So it is false that what is done to one key leaves others alone. Once the order N is set to 1 or less through the curve of any one key, every key, made before or after, refuses every signature. Once the base point is set to zero through the curve that GetSm2P256V1 returns, every key generated has the public key (0, 0) whatever is drawn, and so has the public key computed from any private key.", "quantifier": "all memories, all keys made by the package, all signatures, messages, ids and random inputs", "why_tests_cant": "the damage is to keys unrelated to the one written through; the statement is about all of them, past and future", "anchors": ["sm2/sm2.go:41 sm2P256V1", "sm2/sm2.go:95 GetSm2P256V1", "sm2/sm2.go:99 GenerateKey", "sm2/sm2.go:114 RawBytesToPublicKey", "sm2/sm2.go:125 RawBytesToPrivateKey", "sm2/sm2.go:182 CalculatePubKey", "sm2/sm2.go:543 VerifyByRS"]}
{"id": "C128", "title": "HMAC made from this hash is HMAC with 16-byte blocks, not HMAC-SM3", "statement": "hmac.New(sm3.New, key) of Go's standard library, given this package's hash, yields for every key, message and way of splitting the message into non-empty writes exactly the RFC 2104 construction with blocks of 16 bytes over the standard's SM3; so it differs from HMAC-SM3, whose blocks have 64. A key longer than 16 bytes is the same key as the first 16 bytes of its digest. Sum spoils the object: a second Sum without Reset returns the outer digest of the inner one continued by one more block, another value than the first; Reset after a Sum gives a fresh object for the same key. An empty write panics.", "quantifier": "all keys shorter than 2^31 bytes, all messages under 2^60 bytes and all divisions into non-empty writes", "why_tests_cant": "a round trip (MAC then verify with the same library) succeeds; only agreement with the construction for all keys and messages shows which function is computed", "anchors": ["sm3/sm3.go:10 BlockSize", "sm3/sm3.go:36 New", "sm3/sm3.go:42 Sum", "sm3/sm3.go:57 BlockSize()", "sm3/sm3.go:61 Reset"]}
{"id": "C129", "title": "A padded CBC message can be cut to a chosen length by changing one byte, without the key", "statement": "Take any message, padded with PKCS5Padding to 16 and encrypted with CBCEncrypt under any key and iv. Whoever knows only the ciphertext and the length of the message can change the one byte that stands 17 from the end of the ciphertext so that CBCDecrypt and PKCS5UnPadding return, without an error, exactly the beginning of the message with any chosen q from 32 to 255 bytes of the padded message taken away; for q below 32 the result has the chosen length and only what lies in the last 32 bytes of the padded message can be wrong; for q above the ciphertext's length PKCS5UnPadding panics. For a message of one block the last byte of the iv does the same for every shorter length.", "quantifier": "all keys, ivs, messages and chosen lengths", "why_tests_cant": "tests open what they sealed; the statement is about ciphertexts changed by someone else, for every key and message", "anchors": ["sm4/sm4.go:264 CBCEncrypt", "sm4/sm4.go:282 CBCDecrypt", "util/padding.go:5 PKCS5Padding", "util/padding.go:11 PKCS5UnPadding"]}
{"id": "C130", "title": "Which nil pointers the certificate functions accept, refuse or panic on", "statement": "CreateCertificateInfo, CreateCertificateRequest, VerifyCSRSign, FillCertificateTemplateByCSR, IssueCertificateBySoftCAKey and CreateCertificate on arguments in which any pointer may be nil. With all pointers set they are the functions of the other claims. CreateCertificateInfo panics on a nil template, returns an error for a template without a serial number whatever else is nil, and then panics on a nil parent; a nil request panics unless the call fails in the same way for every request. A nil URI, or a nil permitted or excluded IP range, never leads to a certificate: if everything that is written earlier can be written it panics, except that names in the constraints that are looked at earlier and are not ASCII give an error; where the caller supplies the extension itself the nil pointers are not looked at. CreateCertificateRequest panics on a public key without a point, then on a nil template, then on a nil URI; without a complete private key it panics unless it fails in the same way for every key. VerifyCSRSign panics on a nil request and on a key of another type, but returns false for a nil or incomplete key if the signature is refused by its form; what it accepts has a complete key. Issuing panics on a nil info or an incomplete key, and filling in a template on either nil struct; it hands on nil URIs.", "quantifier": "all templates, parents, requests, infos and keys, each pointer set or nil; all user ids, randomness and behaviours of net/url", "why_tests_cant": "which of several nil pointers is met first, and whether it is met at all, depends on every other field of the template", "anchors": ["sm2/cert/gmx509.go:75 CreateCertificateRequest", "sm2/cert/gmx509.go:210 marshalSANs", "sm2/cert/gmx509.go:536 VerifyCSRSign", "sm2/cert/gmx509.go:541 FillCertificateTemplateByCSR", "sm2/cert/gmx509.go:833 buildExtensions", "sm2/cert/gmx509.go:985 CreateCertificateInfo", "sm2/cert/gmx509.go:1038 IssueCertificateBySoftCAKey", "sm2/cert/gmx509.go:1046 CreateCertificate"]}
{"id": "C131", "title": "What a certificate info without its Raw bytes is worth", "statement": "Certificate infos are exported structs whose fields a caller can change. If Raw is not empty, CreateCertificate and IssueCertificateBySoftCAKey depend on nothing else: changing any other field of an info has no effect on the certificate. If Raw is empty, IssueCertificateBySoftCAKey panics for every key, user id and randomness, and CreateCertificate writes the fields: version (unless 0), serial number, algorithm, issuer, validity, subject, key, the issuer's unique identifier under tag 0x81, the subject's under tag 0x82 (each only if it is set, that is, unless it has no bytes and bit length 0), and the extensions; an info without a serial number is refused. Clearing Raw of an info that CreateCertificateInfo made leaves the certificate the same, and if unique identifiers are then set they are in the certificate, but ParseCertificate returns the same as without them, apart from the raw bytes.", "quantifier": "all infos, signatures, keys, user ids and randomness; all unique identifiers whose unused bits are zero", "why_tests_cant": "nothing in the library ever clears Raw or sets a unique identifier, so only a caller's own code reaches these paths, with any fields", "anchors": ["sm2/cert/gmx509.go:962 TBSCertificate", "sm2/cert/gmx509.go:1038 IssueCertificateBySoftCAKey", "sm2/cert/gmx509.go:1046 CreateCertificate", "sm2/cert/gmx509.go:1071 parseCertificate"]}
{"id": "C132", "title": "Certificate requests made at the same time from shared templates", "statement": "Goroutines that call CreateCertificateRequest at the same time on templates without a request attribute are independent: whatever the schedule, each writes the attributes it would write alone and the memory of the templates stays as it was. On one template with a request attribute they are not: CreateCertificateRequest appends the missing extensions to the template, and calls that look for missing extensions before another has stored them append them again. If n calls share the template, then in every schedule each call that finishes writes the missing extensions at least once and at most n times, after what the attribute had before, and nothing else; if no extension is missing, each writes the template's attributes. Two calls one after the other write each extension once; there is a schedule of the same two calls in which both write it twice, and the parser reads it twice.", "quantifier": "all templates, all memory, all growth policies of append, any number of goroutines, all schedules", "why_tests_cant": "the number of schedules is unbounded, and a test sees only those that its scheduler happens to take", "anchors": ["sm2/cert/gmx509.go:75 CreateCertificateRequest"]}
{"id": "C133", "title": "SM4 under the stream modes of the standard library", "statement": "The SM4 block cipher is a cipher.Block, and users put it under cipher.NewCTR, NewOFB, NewCFBEncrypter and NewCFBDecrypter. With an SM4 key and an iv of 16 bytes, any sequence of XORKeyStream calls with room in dst writes exactly the message with the key stream of the mode, byte by byte, whatever the cut into calls: the encrypted counters iv, iv+1, \u2026 modulo 2^128 for CTR, the iterated encryption of the iv for OFB, the encryption of the ciphertext block before for CFB. What is in dst beyond the length of src stays. Decryption, cut into calls in any other way, gives the message back. Two messages under one key and iv in CTR or OFB reveal their XOR. No CTR key stream block comes twice within 2^128 blocks. An iv of another length, or a dst shorter than src, panics.", "quantifier": "all 16-byte keys, all ivs, all messages, all cuts of a message into calls, all contents and sizes of dst", "why_tests_cant": "the stream keeps a buffer of 512 bytes across calls, refilled when 16 bytes or fewer are left; the cuts of a message into calls are exponentially many, and the counter wraps around only near 2^128", "anchors": ["sm4/sm4.go:92 Encrypt", "sm4/sm4.go:77 NewCipher", "sm4/sm4.go:88 BlockSize"]}
{"id": "C134", "title": "SM4 under GCM of the standard library", "statement": "cipher.NewGCM, NewGCMWithNonceSize and NewGCMWithTagSize accept the SM4 block cipher, with tags of 12 to 16 bytes, and give GCM as NIST SP 800-38D defines it over SM4: Seal appends to dst the message with the key stream of 32-bit counters behind the nonce block, and the tag, which is the GHASH of additional data, ciphertext and lengths, masked; nonces of 12 bytes are used as they are, others are hashed. Open gives a message exactly if its input is what Seal makes of this message with this nonce and these additional data, and in all other cases the one error, never a panic. Opening what was sealed gives the message. A nonce of another length than agreed panics in both, a message of more than 2^36 - 32 bytes panics in Seal. Two messages sealed with one nonce reveal their XOR, and the difference of their tags depends on nothing but the hash key and public values. For given key, nonce, additional data and ciphertext exactly one tag is accepted.", "quantifier": "all 16-byte keys, nonce sizes, nonces, messages, additional data and dst; for Open all inputs", "why_tests_cant": "the standard library multiplies in GF(2^128) with tables of four bits that depend on the key; a vector checks a few products, and no test can show that Open refuses every other input", "anchors": ["sm4/sm4.go:92 Encrypt", "sm4/sm4.go:77 NewCipher", "sm4/sm4.go:88 BlockSize"]}
