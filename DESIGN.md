# Formal model of ontio/ontology-crypto in Rocq (Coq 8.16.1)

Source under study: `/repo` (read as text, never built or run). Everything below
lives in `/verif/rocq/theories` (logical prefix `Verif`).

## 1. Approach

Every Go function that a property talks about is transcribed, function by
function, into a small total Gallina function.

* bytes are `Z` values; well-formed byte strings are `Forall (0 <= b < 256)`;
* `uint32` / `uint64` words are `Z` values reduced modulo 2^32 / 2^64 at every
  operation that can wrap;
* `math/big` integers are `Z` (a nil `*big.Int` is `None` where the code can see one);
* Go panics are values: `go A := Val a | Panic msg | OutOfFuel`.
  `(T, error)` results are `Val (Ok t)` / `Val (Err msg)`, `(nil, nil)` is explicit;
* loops without a static bound take explicit fuel and return `OutOfFuel`;
  theorems quantify over the fuel ("for every fuel, if it returns a value ...";
  divergence: "for every fuel, the result is OutOfFuel");
* `hash.Hash` objects are state machines; `io.Reader` randomness is an arbitrary
  stream (`nat -> Z` or list) that theorems quantify over;
* slices are lists with capacity = length, except in the aliasing model
  (`Mem*.v`), which has a heap of arrays and slices (array, offset, length, capacity);
* third-party or standard-library primitives (SHA-2, Keccak, AES, GCM, scrypt,
  ed25519 (modelled for C85), stdlib ECDSA (C78), btcec (C82, C83), go-ethereum (C84), the *other* elliptic curves' point
  arithmetic) are parameters of the model (Section variables turned into
  explicit arguments, or record fields).  A theorem that needs a behaviour of such
  a primitive has it as an explicit hypothesis (a named predicate), and the file
  shows an instance satisfying it.

Each property Cnn has its theorems, named `Cnn_...`, in a `Prop_*.v` file together
with non-vacuity `Example`s and `Print Assumptions`; longer proofs are in `*Facts.v`.  Specifications that a statement refers to (the SM3/SM4
standards, curve equations, "group of prime order", ...) are written separately
(`Spec_*.v`) and do not use the model's helper functions.

Where the natural full statement is false of the code, the file proves the exact
characterisation ("iff") and exhibits a concrete witness of the deviation.

## 2. Trusted base

* the Coq 8.16.1 kernel (incl. `vm_compute`);
* no axioms: `Print Assumptions` after each theorem prints "Closed under the global
  context".  (The checker lists the seven parameters of `Coq.ssr.ssrunder.Under_rel`, a
  standard library file that is loaded indirectly; no theorem depends on them.)
* the faithfulness of the transcription: each definition carries a comment with
  file and line numbers of the Go code it models and its simplifications;
* for C64 the instruction semantics `AsmX86.v` (written from the processor manual) and the translation
  of `p256_asm_amd64.s` into `AsmSM2.v` by `tools/asm2coq.py`, which maps instructions one to one and
  stops at anything unknown;
* constants of curves that live outside `/repo` (NIST curves, secp256k1) are
  written from the public standards.

Not modelled: timing/side channels (except instruction and address traces of the SM2 assembly, C69), garbage collection, goroutine interleavings
(the library has no shared mutable state except lazily initialised curve tables),
the Go compiler, the content of third-party primitives.

## 3. Properties

| id | what is modelled | how it is proved |
|----|------------------|------------------|
| C01 | sm3.go + sm3block.go as written (buffer, nx, len) vs. a message-level spec of GB/T 32905 | invariant "state = compression of full blocks, buffer = tail" by induction on the write list |
| C02 | op histories Write/Sum/Reset | same invariant, induction on histories |
| C03 | same, panic as a value, no length bound | weaker invariant (0<=nx<64), induction |
| C04 | sm4 block.go/cipher.go | generic Feistel inversion lemma, key schedule reversed |
| C05 | const.go tables vs algebraic S-box, CK formula; rounds vs spec | vm_compute over the 256 indices + structural proof for all blocks |
| C06 | cipher.go checks | case analysis on lengths |
| C07 | aes.go over an abstract block cipher with D(E(x))=x | CBC induction on blocks, padding lemma |
| C08 | same | case analysis; witness for accepted bad padding |
| C09 | PKCS5Padding/UnPadding | arithmetic |
| C10 | ec/key.go, decompress.go on concrete curve constants | primality certificates (Pocklington) + Fermat/Euler + Lucas sequences for P-224 |
| C11 | same | direct: the code checks the square before returning |
| C12 | same | Euler criterion direction |
| C13 | same | byte-encoding lemmas; witness |
| C14 | same | structural |
| C15 | keypair/key.go serialization | uses C10/C13 |
| C16 | same | corollary of C15 plus tag analysis |
| C17 | same | case analysis over all inputs |
| C18 | same | witnesses; identity for EdDSA/Ethereum labels |
| C19 | private key serialization, scalar multiplication abstract | byte lemmas + C10 |
| C20 | same | inversion of the success path |
| C21 | same | case analysis |
| C22 | ComparePublicKey over all key kinds | case analysis; witness P vs -P |
| C23 | Less as an order; sort.Sort as any sorted permutation | strict total order => sorted permutation unique |
| C24 | FindKey | list induction |
| C25 | wif.go incl. base58 via decimal strings | positional-notation lemmas for base 10, 58, 256 |
| C26 | same | inversion |
| C27 | GetP256KeyPairFromWIF | comparison of the two programs; witness |
| C28 | encrypt.go over abstract scrypt/GCM/hash | open(seal)=id hypothesis |
| C29 | same | hypothesis "open succeeds only on seal outputs" |
| C30 | same | composition |
| C31 | signature.go codec | byte lemmas, case analysis over schemes |
| C32 | same | totality by case analysis |
| C33 | same | Deserialize loses the curve |
| C34 | same | case analysis |
| C35 | Sign/Verify dispatch over abstract primitives | case analysis + primitive hypotheses |
| C36 | composition of C31 and C35 | composition |
| C37, C38, C39 | Verify/Sign dispatch | case analysis; witness bytes 0b 01 |
| C40 | scheme.go | finite case analysis, all strings |
| C41 | secp256k1.go ConvertToEthCompatible with a heap | heap model |
| C42-C47 | sm2/signature.go over an abstract prime-order group; instantiated for the real SM2 curve as the group-law development allows | algebra modulo N |
| C48-C51 | sm2/encryption.go with the SM3 model | KDF induction; XOR involution; stale-byte witness |
| C52-C58 | vrf package over an abstract prime-order group | algebra modulo N |
| C59 | heap model of append; vrf.Vrf, vrf.Verify and aes.AesEncrypt on that heap | cell-by-cell frame reasoning; the pure functions of AES.v and VRF.v on the memory contents |
| C60-C62 | p256_amd64.go Go part | window induction; exponent tracking through the addition chains; point formulas against the group law |
| C63 | constants of curves.go and p256_amd64.go | primality certificates; a checked chain to N times the base point; point counting |
| C64 | amd64 assembly at instruction level | symbolic execution of straight-line code with carry invariants; witness for the subtraction defect |
| C65 | sm2 nonce derivation | key-stream lemma; Sign returns the first acceptable attempt |
| C66 | signature.Verify, all schemes | exact acceptance condition over the primitives |
| C67 | the multiplications of the Go code over the values of the assembly routines | agreement with routines that meet the contract of C61 (`AsmFix.v`), carried through the Go code by a relation on marked words (`AsmSim.v`) |
| C68 | the same | a computed witness: two doublings evaluated, the result shown to be off the curve |
| C69 | traces of the assembly at instruction level | an information-flow analysis of the code, proved sound (`AsmTrace.v`) and computed for each routine |
| C70 | GenerateKeyPair, GenerateECKeyPair, Public; crypto/elliptic.GenerateKey on a list of random bytes | attempt by attempt; bit algebra of mask and xor |
| C71 | Encrypt, Decrypt over ScalarMult and ScalarBaseMult of the package | C48 and C50 instantiated with C61 (correct routines) and C67 (assembly, clean runs); IsOnCurve of CurveParams a parameter, right on reduced coordinates (C75 proves that of it) |
| C72 | Vrf, Verify over the same multiplications | C57 and C61; Add and IsOnCurve of CurveParams are parameters (C75 proves them right, C76 instantiates) |
| C73 | curve names; strings.ToUpper on UTF-8 bytes as far as its result can be ASCII | character tables by enumeration, then induction on the name |
| C74 | Ethereum key conversion | C15, C19 and direct computation |
| C75 | crypto/elliptic.CurveParams: IsOnCurve, Add, Double, ScalarMult, ScalarBaseMult | Jacobian coordinates against the group law, in the field Z/p; induction on the bytes of the scalar |
| C76 | SM2 and the VRF with these methods, as on platforms without the assembly | C42, C43, C48, C57 instantiated with C75; C61 for the comparison |
| C77 | the same methods on P-256 and SM2, whose order is prime | at most 2p + 1 < 3N points and none of order two, so three cosets of the multiples of G do not fit and two would give a point of order two (`CurveRoot.v`): every point is a multiple of G (`CurveWhole.v`) |
| C78 | crypto/ecdsa Sign and Verify, over the generic methods and over those of the SM2 package | the verification equation in a group of prime order (C75, C77; C61 and C62 on amd64); signing loop by its first successful nonce |
| C79 | signature.Sign, Verify, Serialize, Deserialize and the key formats together, P-256 and SM2, nothing about ecdsa or sm2 assumed | C15, C20, C31, C66 composed with C43, C76 and C78 |
| C80 | the VRF on P-256 and SM2 with the CurveParams methods (so nothing assumed about the curve): exact evaluation and verification in group terms, completeness, which challenges can be answered | vrf/vrf.go, vrf/vrf_ec.go composed with C75-C77; Spec_VRF2.v |
| C81 | which copies of the private key the WIF functions overwrite and which stay in memory: exact heaps on success and failure | keypair/wif.go:36-82, keypair/key.go:297-331, 423-443 on the heap of Mem.v; WIFMem.v, Spec_WIFMem.v |
| C82 | the compact signatures of secp256k1: what Secp256k1Verify accepts, when it panics, the four strings of one signature, what Secp256k1Sign returns | signature/secp256k1.go:10-20; btcec signature.go, pubkey.go from the published source, the operations on points being parameters assumed to compute in the group; CurveK.v (curves y² = x³ + b, secp256k1), Btcec.v, Spec_Btcec.v, BtcecFacts.v |
| C83 | secp256k1 keys end to end: the byte strings a receiver accepts, on which it panics (with EC keys of every curve), the two formats of one signature, what Sign returns | signature/signature.go:61-230, 245-348 with crypto/ecdsa and btcec filled in; BtcecWhole.v |
| C84 | Ethereum signatures end to end: the byte strings a receiver accepts, both builds of go-ethereum, what Sign returns, conversion of compact signatures | signature/signature.go:140-160, 215-230, ConvertToEthCompatible, with go-ethereum (cgo and Go) filled in; Eth.v, EthFacts.v |
| C85 | Ed25519 end to end: the curve is a group and its base point has order L; which bytes are points; what Verify accepts and Sign returns; every seed signs; keys that sign everything | keypair/key.go:97-108, 238-249, 371-382, signature/signature.go:118-124, 200-204, with x/crypto/ed25519 filled in; Ed25519.v, EdLaw.v, EdZ.v |
| C86 | the life of a private key: generated, stored in files, as WIF and encrypted in any order, still the same key, and what it signs is received | keypair/key.go, wif.go, encrypt.go, ec/key.go, signature/signature.go; Spec_Life.v |
| C87 | the nonces of the secp256k1 signatures are those of RFC 6979; which seeds the two builds of go-ethereum use; no nonce serves two different equations by construction | signature/secp256k1.go, signature.go; btcec and libsecp256k1 as published (Nonce.v); Spec_Nonce.v |
| C88 | the points of P-224 and their number; none has y = 0, so the exceptions of C10 and C12 for P-224 never arise; ECDSA on P-224 from the private key to the bytes received | ec/decompress.go, key.go; keypair/key.go; signature/signature.go; CurveP224.v |
| C89 | all 8 L points of edwards25519; keys and R outside the group of the base point: exactly when Ed25519 verification accepts, compared with the equation of RFC 8032 with the cofactor; the 14 keys of small order; one signature for two messages | golang.org/x/crypto/ed25519 as used by keypair/key.go and signature/signature.go; EdOrder.v |
| C90 | which decoded keys and signatures share memory with the buffer they were read from; ConvertToEthCompatible and SM4 on the heap | signature/signature.go:292-348, secp256k1.go:22-41, keypair/key.go:212-273, 334-395, sm4/block.go:58-92 on the heap of Mem.v; MemObj.v |
| C91 | io.ReadFull over a reader that delivers its bytes in pieces; the entropy of the signers and of Encrypt, the salt of encrypted keys | signature/signature.go:77, 106, sm2/signature.go:135-144, sm2/encryption.go:96-104, keypair/encrypt.go:79, 205-212; Go 1.12 io.ReadFull, internal/randutil; Entropy.v |
| C92 | scrypt and PBKDF2 word by word against RFC 7914 and RFC 8018 on octets; key encryption with them in place of the parameter | keypair/encrypt.go:73-191, 221-230; golang.org/x/crypto scrypt.go, pbkdf2.go (version of go.mod); Scrypt.v |
| C93 | `big.Int.ModInverse` through the extended greatest common divisor, for all integers and moduli; the panics it would lead to in affineFromJacobian and Verify, and that the methods of the curves never reach them | math/big int.go (GCD, ModInverse), crypto/elliptic elliptic.go, crypto/ecdsa ecdsa.go as signature/signature.go, sm2/signature.go and vrf/vrf_ec.go use them; ModInv.v |
| C94 | protected keys with scrypt filled in: exactly which records open to which key, when encryption, decryption and a change of password panic, any number of password changes; generated keys from the draw through the wallet to an accepted signature | keypair/encrypt.go:73-203, 214-254; Wallet.v over Scrypt.v, Prop_Wallet2.v |
| C95 | signatures and the random function with the instructions of the assembly: a signature is valid exactly if the abscissa computed for its own nonce is right; verification and proofs where the runs that matter are clean | sm2/signature.go, sm2/p256_amd64.go, p256_asm_amd64.s, crypto/ecdsa, vrf/vrf.go; Prop_AsmSig.v over AsmSim.v |
| C96 | keys of the SM2 curve on amd64, from generation through every way of storing them to a signature received as bytes, with the instructions of the assembly | keypair/, signature/signature.go, sm2/, ec/key.go on amd64; SigAmd.v, Prop_Amd.v over Prop_AsmSig.v and Prop_Life.v |
| C97 | what the nonces of SM2 signatures give away: known, repeated or linearly related nonces, one nonce in SM2 and ECDSA; what it takes for sm2.Sign to repeat its stream of nonces | sm2/signature.go; Prop_Reuse.v over Prop_SM2.v, Prop_SM2b.v |
| C98 | what the random number of a VRF proof gives away: known, repeated or related numbers, a number related to a signature's nonce, a source that repeats the bytes of key generation | vrf/vrf_ec.go, ec/key.go; Prop_Leak.v over VRF.v, Generate.v, Prop_Reuse.v |
| C99 | an ECDSA signature as bytes is accepted with other keys too: a second key for the same message, another for every other message, with a private key the signer knows | signature/signature.go on P-256 and the SM2 curve; Prop_Subst.v over SigWhole.v, Prop_ECDSA.v |
| C100 | one signature with one key for two messages: for which numbers an ECDSA pair is a signature, a key pair made for two given messages, and that SM3withSM2 excludes this | signature/signature.go, sm2/signature.go on P-256 and the SM2 curve; Prop_Dup.v over Prop_Subst.v, SigWhole.v |
| C101 | what the bytes of a signature with a secp256k1 key say about the signer: compact signatures fit one key per message, Ethereum signatures at least two | signature/signature.go, signature/secp256k1.go, go-ethereum; Prop_SubstK.v over Prop_BtcecWhole.v, Prop_EthSig.v |
| C102 | two received signatures with the same r (SM2, Ed25519: the same point) and the same key give the private key | signature/signature.go, signature/secp256k1.go, sm2/signature.go on P-256, SM2, secp256k1, and Ed25519; Prop_Repeat.v, Prop_Repeat2.v over Prop_Subst.v, Prop_Dup.v, Prop_SubstK.v, Prop_Ed25519.v |
| C103 | what the nonces of SM2 ciphertexts give away | sm2/encryption.go over any multiplications with coordinates below 2^256; Prop_EncReuse.v over C48; example on the SM2 curve |
| C104 | what protected keys give away without the password, and how old ones can be changed without it | keypair/encrypt.go over any hash and block cipher of the right sizes, then over SHA-256, AES and the curves; Prop_WalletLeak.v over C94 |

## 4. Modelling decisions, package by package

* **Curves and primality.** The six field primes and the orders of P-256, secp256k1 and SM2 are
  proved prime by Pocklington certificates (`Primes1-3.v`).  Checking them again with `coqchk`, which has no
  virtual machine, is the main cost of the whole check; examples avoid heavy evaluation.
* **Point decompression.** `rand.Prime` is a finite tape of draws; `OutOfFuel` means the tape
  was used up where the code would draw again.  Only P-224 draws.
* **AES, GCM, SHA-256.** `Spec_AES.v`, `Spec_GCM.v` and `Spec_SHA2.v` write these from the
  standards; where the model takes them as parameters they serve as instances.  scrypt, SHA-512 and scalar multiplication are parameters; C92 puts a modelled scrypt in place of the parameter.
* **base58** is modelled on values (positional notation), not on big-integer strings.
* **sort.Sort** is any function returning a sorted permutation.
* **Signatures.** The signing primitives are Section variables.  `strings.EqualFold` is modelled
  with simple case folding, including the long s and the Kelvin sign.
  `ConvertToEthCompatible` is modelled with the buffer it mutates.
* **SM2 signing** works over an abstract group of prime order with affine coordinates
  (`Spec_Group.v`); the inverse and the combined multiplication are parameters whose
  correctness is a hypothesis on the values used.
* **SM2 encryption** models the plaintext buffer with its spare capacity, because `Decrypt`
  reslices it, and keeps the stale bytes of an earlier attempt of the encryption loop.
* **VRF.** The hash is a pure function of the concatenated writes (for SM3 this is C01/C02; for
  SHA-2 it is an assumption on the standard library).  `elliptic.GenerateKey` is an arbitrary
  result.  `elliptic.Marshal` is the version without the later on-curve panic.  `hashToCurve`
  can return an abscissa of P or more, so C52 and C56 assume that scalar multiplication
  treats *those* coordinates as some group element (`stands_for`), not that they are
  canonical.  In `ProofToHash` the public key itself is passed as the curve; only `Params()`
  is used of it.
* **P-256 style arithmetic of SM2.** `P256.v` is the Go part of `sm2/p256_amd64.go`, over a record
  of the assembly routines; what a routine must do is a hypothesis (`mul_ok` and the like)
  that speaks about all words, reduced or not, because the assembly does not always reduce.
* **The SM2 curve.** `CurveLaw.v` proves the chord-and-tangent law a group over any field of
  characteristic not 2; `CurveZ.v` makes it the group of a curve over Z/p; `CurveSM2.v` instantiates it.  N times the base
  point is computed by a chain with slopes and quotients given (`ChainSM2.v`, written by `tools/mkchain.py`).  N kills every point
  of the curve: there are at most 2p + 1 < 3N points, and no point of order two because the
  cubic has no root (`CurveRoot.v`; `RootSM2.v` and `RootP256.v`, written by `tools/mkroot.py`; the chains by `tools/mkchain.py`).
* **CurveParams.** `Elliptic.v` is the generic code of crypto/elliptic as of Go 1.12 to 1.16 (without the later panics
  for points off the curve), written from its published source, since it is not in `/repo`.  On amd64 it serves SM2
  for `Add` and `IsOnCurve`, elsewhere for everything (`SM2Generic.v`).  `ModInverse` is a power modulo the prime; C93 proves that
  this is what the extended greatest common divisor gives.
* **ECDSA.** `ECDSA.v` follows crypto/ecdsa as published with Go 1.12 (not in `/repo`): key stream from SHA-512 and AES-CTR,
  both parameters.  `ModInverse` is a power modulo the prime order (C93).  The assembly that Go has for P-256 is taken to agree
  with the generic methods.  The P-256/SHA-256 example of RFC 6979 was evaluated with the model (not in the theories: too slow for `coqchk`).
* **Ed25519.** `Ed25519.v` follows x/crypto/ed25519 at the version of go.mod as published (not in `/repo`), with field elements as integers and
  points as affine pairs; tables, windows and limbs are left out, SHA-512 is a parameter.  `EdLaw.v` proves the addition law of
  y^2 - x^2 = 1 + d x^2 y^2 complete and a group law over any field with a square root of -1 where d is not a square; `EdZ.v` and
  `EdCurve.v` instantiate it; the chain to L B = O is written by `tools/mkedchain.py`.  The second test vector of RFC 8032 was
  evaluated with the model (not in the theories: too slow for `coqchk`).
* **Nonces.** `Nonce.v` follows `nonceRFC6979` of btcec, `crypto/hmac` and the nonce function of libsecp256k1 as published (not in `/repo`), with
  SHA-256 a parameter of 32-byte outputs.  The rounds are unbounded in the code; the model takes fuel and the theorems say what running out of it means.
  The known secp256k1 vector with private key 1 and the SHA-256 digest of "Satoshi Nakamoto" was evaluated with the model (not in the theories).
* **P-224, P-384, P-521.** `CurveP224.v` does for P-224 what `CurveWhole.v` does for P-256 and the SM2 curve (prime order, the multiple N of the base
  point, no root of the cubic).  For P-384 and P-521 the same certificates could be generated, but checking them again with coqchk would take several
  times as long as for P-256; the group order of these two curves is used only through its bit length.
* **Point formulas.** `P256Point.v` has the three point routines over a record of field
  routines; over exact field arithmetic they meet the contract of C61 on the real curve.
* **Assembly.** `AsmX86.v` is a machine with registers, flags, vector registers, objects in memory and a
  stack frame; undefined values, unaligned vector operands and accesses outside an object stop it.
  `AsmMul.v` to `AsmAff.v` execute the functions symbolically (weakest preconditions, one lemma per
  instruction); `AsmVal.v` has the results as functions on whole values (`asm_prims`), `AsmEq.v` compares
  them with modular arithmetic.  `p256_sm2OrdSqr`, which Go does not call,
  is translated; `C64_ord_sqr_wrong` shows that it does not square (the square of 0 comes out as a non-zero residue).
  `C64_ord_sqr_square` (Prop_OrdSqr.v): its products are right, the fault is in the reduction.
  `p256_sm2MovCond` needs its first operand at an address divisible by 16; the Go callers pass 96-byte
  heap objects, which are (argued).
* **Clean runs.** `Spec_AsmClean.v` says when a call of a point routine meets no unreduced subtraction,
  and marks the words of a whole multiplication that depend on a call that is not clean.  The contract of
  C61 allows X and Y equal to p, because a clean doubling of a point can leave Y = p.
* **Traces.** `Spec_AsmTrace.v`: an observer sees each instruction and the addresses it accesses, not how long it
  takes.  The Go code around the routines is not covered: `ScalarMult` tests the scalar against N, and math/big is not constant time.

## 5. Deviations found in the code

Each is a theorem or an example, unless marked (argued).

* SM2 `ScalarMult` returns (0,0) for the scalar N-6, `CombinedMult` also for sG = tP; so `Verify`
  refuses some valid signatures that it accepts on other platforms (C61, C76; nobody meets these by chance).
* ECDSA on the SM2 curve, amd64: `Verify` refuses valid signatures with r + 6s = 0 mod N or eG = rP (C78).
* `p256_sm2SubInternal` leaves differences below 2^256 - p unreduced (plus p) and is wrong when the
  first operand is smaller by more than p: the P-256 carry fix of 2017 is missing (C64).  So `ScalarMult` is wrong for some points (C68); for
  random input with a probability of about 2^-25 (argued).
* Ed25519: `DeserializePublicKey` takes any 32 bytes; under the four encodings of the neutral element one fixed signature fits every message.
  `DeserializePrivateKey` does not compare the public half with the seed; signatures made with two halves reveal the secret scalar (C85).
* The private key 0, which `GenerateKeyPair` can return, can be encrypted and exported as WIF but never comes back from a file (C86).
* For a 32-byte digest whose value is not below the order of secp256k1, go-ethereum with cgo seeds the nonce with the digest itself and the build
  without cgo with the digest reduced modulo the order, so the two sign the same message with nonces from different seeds.  Both signatures
  are valid.  Below the order they return the same bytes (C87).
* `DeserializePublicKey` accepts the 14 encodings of Ed25519 keys of small order; under such a key one signature is accepted for every
  message whose challenge agrees modulo the order (1, 2, 4 or 8) of the key.  Verification uses the equation without the cofactor, so it
  refuses signatures that RFC 8032 allows to accept when key or R lie outside the group of the base point (C89).
* An Ed25519 private key returned by `DeserializePrivateKey` and a 65-byte ECDSA signature returned by `Deserialize` are slices of the
  caller's buffer, unlike all other decoded keys and signatures; overwriting the buffer (clearing it, reading the next key into it, or
  calling `ConvertToEthCompatible` on it) changes them (C90).
* The signers and `sm2.Encrypt` take half as many random bytes as the field has (16 for 256 bits), so one key signs one digest in at most
  2^128 ways; the seed of the nonces `D || entropy || digest` is not delimited: keys and digests of different lengths can share it (C91).
* `kdf` passes the caller's scrypt parameters on unchecked: `P = 0`, or `R = 0` with `P > 0`, makes `scrypt.Key` divide by zero, so
  `EncryptWithCustomScrypt` and `DecryptWithCustomScrypt` panic instead of returning an error (C92).
* `ReencryptPrivateKey` accepts an empty new password, although no record opens under an empty password: the key is lost (C94).
* `sm2.Inverse` drops the sign: for negative k it returns the inverse of -k (C62).
* `ComparePublicKey` ignores Y for EC keys (C22).
* Uncompressed points are not checked to be on the curve, abscissae are not checked to be
  below P, trailing bytes are ignored (C13, C14); with such a point CurveParams computes on another curve (C75); on P-224 an x with y = 0 would be refused (C12), but there is none (C88).
* Private key deserialization can return (nil, nil) or panic (C21).
* Algorithm and curve of a protected key are not authenticated, a missing curve means secp256k1; curve names
  accept the long s (C73).  Ethereum conversion takes keys of any curve (C74).
* `EncryptPrivateKey` panics on Ethereum keys (C28); the legacy CTR mode is not authenticated
  (C29).
* `GenerateKeyPair` can return the scalar 0 and, for SM2, N-1; on errors its results can be non-nil interfaces
  holding nil; `Public()` of an Ethereum private key is an `*ecdsa.PublicKey`, which `SerializePublicKey` and
  `GetKeyType` panic on (C70).
* WIF import takes any non-zero version byte and any compression flag (C26).
* `Verify` panics for some Ethereum signatures (C38); with a btcec whose recoverKeyFromSignature
  does not test r and s (they were added at some release, which cannot be checked here; Btcec.v has both versions)
  it panics for 66-byte signatures with r = N, for EC keys of every curve (C82, C83); `ConvertToEthCompatible` mutates its
  argument for the ECDSA schemes, so that a second call gives another result (C41); `GetScheme` accepts the long s and the Kelvin sign (C40).
* SM2 signing with D = N - 1 does not terminate (C45; with `Inverse` itself in `Prop_P256d.v`).
* The private key N - 6 is useless for SM2 decryption (it accepts forged ciphertexts) and for the VRF (constant output,
  no proof accepted); the nonce N - 6 would publish the plaintext (C71, C72; nobody meets these by chance).
* SM2 encryption of the empty message does not terminate; a retried attempt keeps stale bytes;
  C3 uses a left-aligned y2 (C49, C50).  `Decrypt` panics for small capacities (C50).
* VRF proofs are malleable in t (C56); `hashToCurve` may return an unreduced abscissa or
  nothing, and the latter panics (C57).
