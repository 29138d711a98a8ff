# Design of the formal model

Subject: `ZZMarquis/gm` (Go), read as text from `/repo` (never built or run).
Prover: Coq 8.16.1, standard library only. Build: `cd rocq && coq_makefile -f _CoqProject -o Makefile && make -j4`.

## 1. Method

The Go code is transcribed function by function into Gallina (files named after the
package). Every definition carries a comment with file and line numbers. Independent
specifications (from the GM/T standards, X.690, or plain list/number language) live in
separate `*Spec.v` files and never mention the model. `Props*.v` contain the final theorems, each
with an example beside it. `Assumptions.v` bundles every theorem named in `MANIFEST.json` and prints
the assumptions of the bundle.

Conventions of the model (`GoBase.v`):

* Bytes, words and machine integers are `Z`; wrap-around is written out (`mod 2^32`, ...).
  A byte string is `list Z` with the predicate "all elements in 0..255".
* A call returns `Ret v` or `Panic k`; Go error values are ordinary return values.
* Where nil and empty slices behave differently the model keeps `option (list Z)`.
* Where aliasing matters (SM4 buffers, padding functions, fixed Builders) memory is explicit:
  a backing array plus offset/length/capacity windows.
* A random source is a finite byte tape; reading past its end is the reader's error. Loops
  that draw randomness therefore recurse on the tape. "Never terminates" is rendered as
  "for every tape, the whole tape is used up and only the reader's error comes out".
  Sm2Reader.v has the same functions on an arbitrary `io.Reader`, and C110 shows that the tape is no restriction.
* `math/big` values are `Z`.

## 2. Plan per property

| Property | Modelled part | How it is proved |
|---|---|---|
| C01-C06 | all of `sm3/sm3.go` | state/message relation preserved by Write; padding lemma; comparison with the standard's definition |
| C07-C13 | all of `sm4/sm4.go`, CBC of `crypto/cipher` | round-by-round equality with the standard; Feistel inversion; windows into one memory |
| C14-C17 | all of `util/padding.go` | list reasoning; slices with capacity |
| C18-C25 | `cryptobyte/string.go`, readers of `asn1.go` | case analysis on header; uniqueness of minimal length encoding |
| C26-C31 | `cryptobyte/builder.go`, writers of `asn1.go` | interpreter for call trees against a serialiser on trees |
| C32-C38 | INTEGER, OID, BIT STRING, BOOLEAN, optional readers and writers | two's-complement arithmetic over Z; base-128 digits |
| C39 | constants of `sm2.go` | Pocklington certificates checked by the kernel; scalar multiplication certificate |
| C40 | generic `elliptic.CurveParams` | group law over the prime field; Jacobian formulas refine it |
| C41-C57 | `sm2/sm2.go`, needed parts of `encoding/asn1` | group law + SM3 model + DER model |
| C58-C61 | `sm2/keyexchange.go` | group law, bilinearity of scalar multiplication |
| C62-C70, C72, C76, C77 | the helper functions and the extension building/parsing of `sm2/cert/gmx509.go` | exhaustive case analysis on bits, induction on lists; one round trip per extension, then composition |
| C71, C73, C80-C83 | `CreateCertificateInfo`, issuing, parsing of certificates and requests | `elem u v e`: "the bytes e are read as v in front of anything"; inversion of marshalling; predicates carried through parsing (`field_sat`) |
| C74, C75 | hashed coordinates in `keyexchange.go` | explicit points, scalar multiplication certificates (`KexCert.v`) |
| C78 | times of `encoding/asn1` | days/civil bijection |
| C84 | `AddASN1GeneralizedTime`, `ReadASN1GeneralizedTime`, with `Time.Format` for that layout | inversion of the parser: what parses is what is printed |
| C85, C86 | `SignToRS`, `VerifyByRS` (no new code) | linear equations modulo the prime order; points with a given x coordinate |
| C89-C91 | key pairs, `Encrypt`, `Decrypt`, `SignToRS`, `VerifyByRS` (no new code) | the curve has exactly n points: pigeonhole count in Sm2Cyclic.v, no point of order two in Sm2Cubic.v (a certificate for gcd(x^p - x, x^3-3x+b) = 1) |
| C93 | attribute values, times and UTF-8 in `encoding/asn1` (no new code) | equivalences for every tag; RFC 3629 encoder as the specification of UTF-8 |
| C94 | `ParseCertificate` (no new code) | one equivalence: grammar and acceptable parts on one side, result of the parser on the other |
| C95 | `ParseCertificateRequest` (no new code) | the same for requests |
| C96 | `RawBytesToPublicKey`, `VerifyByRS`, `Encrypt` (no new code) | the key (0,0): forged signatures for every message, constant key stream |
| C97 | scalar multiplication, `VerifyByRS`, `Encrypt` (no new code) | keys off the curve: arithmetic on the other curve through them, few possible secrets |
| C98 | `New`, `Write`, `Sum`, `Reset` of SM3 (no new code) | outputs and panics of every history of calls |
| C99 | `sm3.Sum` (no new code) | length extension, forged prefix codes |
| C100 | `sm3.Sum` (no new code) | a collision gives a collision of the compression function |
| C101 | `ECBEncrypt`, `CBCEncrypt`, `CBCDecrypt`, `PKCS5UnPadding` (no new code) | equal blocks, effect of changed ciphertexts, padding oracle |
| C102 | `GenerateKey`, `Encrypt`, `SignToRS` (no new code) | equal numbers of random strings for every possible key, ciphertext, signature |
| C103 | `util/bigint.go`, `ZForAffine`, and again sm2.go and `calculateU`, with memory (`Sm2Mem.v`) | simulation by the model on values, with a frame: old integers and buffers unchanged, results new |
| C104-C106 | `Encrypt`, `Decrypt`, `CalculateKeyWithConfirmation` (no new code) | pairs of executions compared; equal hashes give equal strings or an explicit collision |
| C107 | `CreateCertificateInfo`, `buildExtensions`, `IssueCertificateBySoftCAKey`, `CreateCertificateRequest` (no new code) | each marshalled field is written iff its value is good; builder sizes bounded |
| C108 | `CreateCertificateRequest` to `ParseCertificate` in sequence (no new code) | composition of C81, C73 and C80; a name read and written again keeps its nine fields |
| C109 | `CreateCertificateRequest` on memory: attribute arrays with offset, length, capacity (`CertMem.v`) | cell-by-cell lemmas for writes; the loop in terms of the first matching attribute; simulation by the value model |
| C110 | `GenerateKey`, `Encrypt`, `SignToRS`, `Sign` and `io.ReadAtLeast` on an arbitrary `io.Reader` (`Sm2Reader.v`) | simulation of each loop by the tape model; fuel chosen from the number of reads |
| C111 | the programs of `Sm2Mem.v` in goroutines on one memory (`Sm2Conc.v`) | each program is related to itself under any pairing of the addresses it makes; with that, an invariant over all schedules pairs every goroutine with its run alone |
| C112 | sm4.go and sm3.go as programs of single memory accesses in goroutines (`ConcMem.v`, `SmConc.v`) | each program keeps to the memory it is said to read and write; an invariant over all schedules then gives each goroutine its run alone, which `SmConcAlone.v` proves to be what Sm3.v computes and the SM4 standard says; refutations by evaluation of one schedule each |
| C113 | builder.go and `AddASN1` with Builders and slices in memory (`CbMem.v`) | simulation by the one-buffer model of `CbBuilder.v` (`CbMemSim.v`); an invariant over all programs for what stays unchanged (`CbMemFrame.v`); refutations by evaluation |
| C114 | string.go and the reading half of asn1.go with windows in memory (`CbStrMem.v`) | each call simulates the function of `CbString.v` (`CbStrMemSim.v`); induction over sequences of calls; refutations by evaluation |
| C115 | the ASN.1 readers and the certificate parser with the width of int as a parameter (`CbWidth.v`) | the header says 2^31 bytes or more exactly if the string is huge; case analysis; simulation of the parser; witness by evaluation |
| C116 | as C32-C38 and C84 | corollaries of those theorems with the numbers written out |
| C117 | parsing on windows of an array (`CertShare.v`): everything of encoding/asn1 that certificates and requests use, with copies where the library copies | simulation between the parsers on windows and on contents, then a frame argument |
| C118 | nothing new: CbString.v against GoAsn1.v | both characterised by the same grammar; the two base-128 loops compared step by step |
| C119 | `MarshalASN1`, `BytesOrPanic`; the rest was there | both writers against `tlv`; on states of the Builder |
| C120 | nothing new | `cancels` in the group; the rest from C60_exact and the cyclic group of the curve |
| C121 | `PrintT`, `KeySizeError.Error`, `strconv.Itoa`, the verb `%08X` | induction on digits; the 64 constants one by one |
| C122 | `keyexchange.go:46-148` with memory (`KexMem.v`), alone and as a call of `Sm2Conc.v` | step-by-step relation to the function on values; the related-programs argument of C111 for the new calls |
| C123 | `gmx509.go:553-559, 691-950, 985-1055` with memory (`CertInfoMem.v`) | block-by-block relation to the functions on contents; `Raw` alone enters `CreateCertificate`; parsed certificates have the algorithm identifier at a fixed place (C87) |
| C124 | `sm2.go:303, 331, 383, 437` (`unknownType` in `Sm2.v`) | `string(t)` is the UTF-8 encoding of the character; decoding it with the model of unicode/utf8 gives it back |
| C125 | `sm4.go:262-296` with `crypto/cipher/cbc.go`, `padding.go` as programs on shared memory (`SmConcMode.v`) | footprint of every call, the interleaving theorem of `ConcMem.v`, and refinement to the standard's CBC when run alone |
| C126 | all of `sm2.go` and `keyexchange.go` that takes keys, with nil pointers (`Sm2Nil.v`) | each call equals the one of `Sm2.v` on the parts it needs, or panics, case by case |
| C127 | keys, curve and package variables as addresses (`Sm2Mem.v`) | addresses of the curve in every key made; execution after a write |
| C128 | `sm3.go` under `crypto/hmac` (`GoHmac.v`) | the state after each write stands for the bytes written (as C02, C03, C04), RFC 2104 as the specification |
| C129 | CBC with PKCS5 padding and its removal | block structure of CBC decryption (C12, C101); xor of the padding byte |
| C130 | `gmx509.go`: making, filling in, verifying and issuing, with nil pointers (`CertNil.v`) | the blocks of the extension list (C67); builder states when a callback panics (C26); keys as in C126 |
| C131 | `gmx509.go`: `CreateCertificate` and issuing on infos changed by the caller (`Cert.v`) | the elements of the struct one by one (C71, C80); an optional field with an implicit tag read back; an identifier counts as unset exactly if it has no bytes and bit length 0 (`C131_odd_ids`); signing nothing panics (C48) |
| C132 | `gmx509.go`: the attributes in `CreateCertificateRequest`, in goroutines (`CertConc.v`) | an invariant of every schedule: each value is the old one and copies of the missing extensions, so that writing one more copy in place changes no other value; the memory model of C109 |
| C133 | `sm4.go`: the cipher under `crypto/cipher` CTR, OFB, CFB (`GoStream.v`) | an invariant of the buffered stream: what is left in the buffer, then what the generator gives next, is the rest of the key stream; a refill keeps it. CFB: iv and ciphertext in one piece. The examples agree with OpenSSL 3.0 |
| C134 | `sm4.go`: the cipher under `crypto/cipher` GCM (`GoGcm.v`) | multiplication by x is linear over XOR; the two 64-bit words are one number of 128 bits, the reduction table is four doublings, the product table the multiples of four bits; Horner's rule gives the product. Example: the vector of RFC 8998 |
| C92 | `parseCertificate` extensions, `parseNameConstraintsExtension`, `parseSANExtension`, `encoding/asn1` parsing (no new code) | accepted bytes = a grammar, both ways; DerIff.v has the equivalence for single elements, lists and optional fields |
| C87, C88 | `ParseCertificate`, `parseCertificate` (no new code) | a field is read from its own bytes only; every extension acts on the fields of its kind only |
| C79 | names of `crypto/x509/pkix` | induction on attribute lists |

`Vectors.v` checks the SM2 model against the sample values of the published standard (GB/T 32918.5): signing and
verifying, encryption, and key exchange from both sides. The scalar multiplications involved are justified by the
chains of steps in `Sm2VecCert.v` and `KexVecCert.v`.

Anything found not expressible, or only partly proved, is listed in section 4.

## 3. Trusted base

* Coq's kernel (including its VM, used by `vm_compute`).
* The axioms printed by `Print Assumptions`: none. `Assumptions.v` prints "Closed under the global context" for the
  bundle of all theorems, hence for each of them.
* The reading of the Go source into the model, and the reading of the Go standard library
  behaviour listed in section 5.

## 4. Not modelled or partial

* **Not modelled at all**: the test files. No function of the library starts goroutines. Concurrent callers are modelled for SM2's functions
  (C111), for SM3, SM4 and padding (C112, C125) and for the attributes of a shared request template (C132), which is all the certificate code
  writes of a caller's memory besides the template that `FillCertificateTemplateByCSR` is there to fill in. These are interleavings; the weaker behaviour that Go allows for data races is not modelled.
* **Times and memory**: running time, constant-time behaviour and allocation failure are not modelled.
  Slices and strings are assumed shorter than 2^63 bytes; where an `int` computation could overflow below that, the
  theorem states the bound it needs (for SM2 messages and ids: 2^31 bytes).
* **Error texts**: only whether an error is returned is claimed, except where a property names the text. Texts are
  carried in the model to make error paths distinguishable; formatted values inside them are dropped.
* **Sharing in SM2**: Sm2.v works on values; Sm2Mem.v has the same functions on addresses, as programs that
  are sequences of memory accesses; C103 shows that sharing between arguments makes no difference.
* **Builders**: CbBuilder.v keeps one buffer for a tree of Builders and leaves out calls on a child after its
  continuation has returned, a BuildError holding nil, panic(nil) and continuations that recover; CbMem.v has all of these, on
  memory, and C113 says when the two agree. Other calls of asn1.go are sequences of these.
* **Strings**: CbString.v has contents only; CbStrMem.v has the windows, and C114 says how the two agree.
* **int** has 64 bits everywhere except in CbWidth.v (C115), where the width is a parameter of the ASN.1 readers
  and of the certificate parser. SM2, SM3, SM4, the key exchange and the Builder are modelled with 64 bits only.
* **SM2 keys** are the numbers in the key struct. The `Curve` field is assumed to be the package's own curve, as
  all the package's constructors set it; Sm2Nil.v (C126) has keys with nil pointers, but no other curve parameters. Public keys off the curve are covered only where a theorem says so.
* **Certificates**: all of `gmx509.go` is modelled except the type declarations' unused fields and the string
  tables of names. Values are copied, except that CertShare.v has the two
  parsers with slices as windows of the input (C117: which results share memory with it). Trusted there: which types
  `encoding/asn1` copies (`[]byte`, strings, numbers, identifiers) and which it slices (RawContent, RawValue, BitString,
  octet strings in an `interface{}`). Spare capacity behind a returned slice is not modelled.
  The one place that writes to an argument's memory, the attributes in `CreateCertificateRequest`, is modelled
  on memory in CertMem.v, and C109 says when the value model agrees.
  Cert.v has a nil pointer for the serial number only; CertNil.v (C130) has nil arguments, URIs, IP ranges and keys.
* **`encoding/asn1`** is modelled only as far as the structs of this repository use it (section 5).

## 5. Standard-library behaviour relied on

The sources of Go's standard library are not in the sandbox; these parts were transcribed from knowledge of Go 1.12:

| Package | Used as |
|---|---|
| `math/big` | integers `Z`; `Bytes` is the minimal big-endian absolute value; `ModInverse` is nil for non-units; `Exp`, `Mod` Euclidean |
| `crypto/elliptic` | generic `CurveParams`: `IsOnCurve`, `Add`, `Double`, `ScalarMult`, `ScalarBaseMult`, `GenerateKey`, `Marshal`, `Unmarshal` transcribed in `GoElliptic.v`, Jacobian formulas included |
| `crypto/rand`, `io` | `rand.Int` and `io.ReadFull` over a finite tape; `EOF`/`unexpected EOF` at its end; over any reader in Sm2Reader.v |
| `crypto/hmac` | `New`, `Write`, `Sum`, `Reset` over this package's hash (`GoHmac.v`); not imported by /repo, modelled for callers |
| `crypto/cipher` | CBC encrypter/decrypter loops, `crypto/subtle`-free; the overlap panics are modelled. CTR, OFB and CFB with their buffers (`GoStream.v`) and GCM with its tables (`GoGcm.v`); not imported by /repo, modelled for callers |
| `encoding/asn1` | `Unmarshal`/`Marshal` for the types used: header parsing, INTEGER, BIT STRING, OCTET STRING, OID, BOOLEAN, RawValue, struct, slice, `optional`/`explicit`/`tag`/`set` (`GoAsn1.v`). nil and empty byte slices inside BitString and RawValue are not told apart |
| `encoding/asn1` times, `time` | a time is seconds since 1970, nanoseconds and a zone offset; UTCTime for 1950-2049, GeneralizedTime otherwise; proleptic Gregorian calendar |
| `crypto/x509/pkix` | `Name.ToRDNSequence`, `FillFromRDNSequence`, `AlgorithmIdentifier`, `Extension`, attribute types (`GoPkix.v`) |
| `net/url`, `net` | parsing and printing of URLs and `ParseIP != nil` are parameters of the theorems (`netEnv`), so they hold for every implementation; `IP.To4`, `IP.Mask`, `IPNet` are modelled |
| `unicode/utf8`, `strings`, `reflect` | `DecodeRune`, `Valid`, `LastIndex`-like functions on bytes (`GoText.v`); `reflect` only through the struct descriptions of `GoAsn1.v` |
| `encoding/binary`, `hash`, `bytes`, `append`/`copy` | direct list functions |
