{"id": "C01", "title": "SM3 digest is independent of how the message is split into Write calls and equals the standard hash", "statement": "For every sequence of Write calls on a fresh (or Reset) SM3 hash object, Sum(prefix) returns prefix followed by the 32-byte GB/T 32905 SM3 hash of the concatenation of everything written; the one-shot sm3.Sum function returns the same 32 bytes.", "quantifier": "every finite list of byte strings (any chunk lengths, including empty chunks) with total length below 2^61 bytes, every prefix", "why_tests_cant": "the number of chunkings is infinite and the buffering logic has boundary behaviour at every multiple of 64 bytes and at residues 55/56; a unit test covers finitely many", "anchors": ["sm3/sm3.go: Reset, New, Write, Sum, checkSum, Sum (package func)", "sm3/sm3block.go: blockGeneric"]}
{"id": "C02", "title": "SM3 Sum never disturbs the running hash; Reset forgets all history", "statement": "After any history of Write, Sum and Reset calls, the value returned by a Sum call depends only on the bytes written since the last Reset: Sum calls in between have no effect, and a Reset object behaves as a new one.", "quantifier": "every finite history (interleaving) of Write/Sum/Reset operations on one hash object with fewer than 2^61 bytes written since the last Reset", "why_tests_cant": "quantifies over all operation histories", "anchors": ["sm3/sm3.go: digest.Write, digest.Sum, digest.Reset, digest.checkSum"]}
{"id": "C03", "title": "SM3 internal panic is unreachable and Write is total", "statement": "No history of Write/Sum/Reset calls reaches the explicit panic(\"d.nx != 0\") or an out-of-range index; every Write reports the full length written and a nil error; every digest is exactly 32 bytes, each in 0..255.", "quantifier": "every finite history of Write/Sum/Reset operations, no length bound", "why_tests_cant": "unreachability over all histories (including those beyond the 2^61 byte counter wrap) needs an invariant", "anchors": ["sm3/sm3.go: digest.Write, digest.checkSum"]}
{"id": "C04", "title": "SM4 decryption inverts encryption and encryption inverts decryption", "statement": "For a cipher built from any 16-byte key, decrypting an encrypted 16-byte block gives back the block, and encrypting a decrypted block gives back the block.", "quantifier": "every 16-byte key and every 16-byte block", "why_tests_cant": "2^256 (key, block) pairs; the property is an algebraic fact about the Feistel structure and reversed key schedule", "anchors": ["sm4/cipher.go: NewCipher, Encrypt, Decrypt", "sm4/block.go: generateSubkeys, cryptBlock, f, t, kt"]}
{"id": "C05", "title": "SM4 computes the GB/T 32907 function", "statement": "The implementation computes exactly the standard's block transformation: key schedule with FK and CK where byte j of CK_i is (4i+j)*7 mod 256, 32 rounds, reverse output, with the standard's S-box described independently by its algebraic definition (affine - inversion in GF(2^8) with polynomial x^8+x^7+x^6+x^5+x^4+x^2+1 - affine).", "quantifier": "every 16-byte key and block, every S-box index", "why_tests_cant": "a mistake in one table entry or one constant is only visible on the inputs that hit it", "anchors": ["sm4/const.go: fk, ck, sbox", "sm4/block.go"]}
{"id": "C06", "title": "SM4 argument handling", "statement": "NewCipher succeeds exactly for 16-byte keys and reports the bad size otherwise; Encrypt/Decrypt on source or destination shorter than 16 bytes panic and never return; otherwise exactly the first 16 bytes of the destination are replaced and the rest is untouched, also when source and destination are the same buffer.", "quantifier": "every key length, every source and destination buffer", "why_tests_cant": "all lengths and all contents", "anchors": ["sm4/cipher.go: NewCipher, Encrypt, Decrypt", "sm4/block.go: cryptBlock"]}
{"id": "C07", "title": "AES-CBC wrapper round trip", "statement": "AesDecrypt(AesEncrypt(p, key, iv), key, iv) returns p without error.", "quantifier": "every plaintext of any length, every 16/24/32-byte key, every 16-byte iv, for every block cipher whose Decrypt inverts its Encrypt", "why_tests_cant": "all plaintext lengths and contents", "anchors": ["aes/aes.go: AesEncrypt, AesDecrypt, PKCS5Padding, PKCS5UnPadding"]}
{"id": "C08", "title": "AES-CBC wrapper behaviour on hostile ciphertext", "statement": "With a valid key and a 16-byte iv AesDecrypt never panics: it returns an error when the ciphertext is shorter than a block or not a multiple of the block size, and otherwise returns either a prefix of the CBC decryption or an error, exactly according to the last decrypted byte. It does NOT authenticate or fully validate the padding: inputs whose padding bytes are malformed, and a padding byte of 0 or larger than a block, are accepted.", "quantifier": "every ciphertext byte string", "why_tests_cant": "attacker-controlled input of any length and content", "anchors": ["aes/aes.go: AesDecrypt, PKCS5UnPadding"]}
{"id": "C09", "title": "PKCS5 padding/unpadding algebra", "statement": "For block sizes 1..255 PKCS5Padding yields a positive multiple of the block size and PKCS5UnPadding inverts it; padding is injective. For block size 256 the inverse law fails.", "quantifier": "every byte string and every block size from 1 to 255; a witness for 256", "why_tests_cant": "all lengths", "anchors": ["aes/aes.go: PKCS5Padding, PKCS5UnPadding"]}
{"id": "C10", "title": "Compressed public key round trip on every supported curve", "statement": "For every point (x,y) with 0<=x,y<p and y^2 = x^3+ax+b on any of the supported curves (P-224, P-256, P-384, P-521, SM2P256V1, secp256k1; y nonzero on P-224), DecodePublicKey(EncodePublicKey(key, compressed=true)) returns the same curve and the same x and y.", "quantifier": "every affine point of each of the six curves; for P-224 every outcome of the random choices inside the square root", "why_tests_cant": "about 2^256 points per curve; depends on the field prime being prime and on the square-root algorithm", "anchors": ["ec/key.go: EncodePublicKey, DecodePublicKey", "ec/decompress.go: deCompress, curveSqrt, fastLucasSequence"]}
{"id": "C11", "title": "Point decompression is sound", "statement": "If DecodePublicKey accepts a compressed encoding, the returned point satisfies the curve equation modulo p, has the requested parity (for reduced y) and has exactly the encoded x.", "quantifier": "every byte string, every curve with an odd field modulus (no primality assumed)", "why_tests_cant": "attacker-controlled input", "anchors": ["ec/key.go: DecodePublicKey", "ec/decompress.go: deCompress, curveSqrt"]}
{"id": "C12", "title": "Point decompression is complete: rejection means no such point", "statement": "If DecodePublicKey rejects a compressed encoding of the right length with tag 2 or 3, then no y satisfies the curve equation for that x (apart from y=0 on P-224).", "quantifier": "every x encoding on each supported curve", "why_tests_cant": "universally quantified non-existence", "anchors": ["ec/decompress.go: deCompress, curveSqrt"]}
{"id": "C13", "title": "Uncompressed encoding round-trips but is not validated", "statement": "DecodePublicKey(EncodePublicKey(key, compressed=false)) returns the same coordinates for all coordinates that fit the field size; conversely an uncompressed encoding of ANY pair of coordinates is accepted: DecodePublicKey performs no curve membership or range check for tag 4.", "quantifier": "every coordinate pair, every supported curve", "why_tests_cant": "all coordinates; existence of accepted invalid points", "anchors": ["ec/key.go: EncodePublicKey, DecodePublicKey"]}
{"id": "C14", "title": "Key decoding ignores trailing bytes and accepts non-reduced coordinates", "statement": "Decoding depends only on the first length+1 (or 2*length+1) bytes: appending arbitrary bytes never changes the outcome; and an x coordinate >= p is accepted as such.", "quantifier": "every encoding and every suffix", "why_tests_cant": "all suffixes", "anchors": ["ec/key.go: DecodePublicKey"]}
{"id": "C15", "title": "Public key serialization round trip for all key types", "statement": "DeserializePublicKey(SerializePublicKey(k)) returns a key equal to k (same type, algorithm, curve, coordinates/bytes).", "quantifier": "every valid ECDSA/SM2-algorithm key on any of the six curves, every 32-byte Ed25519 key, every valid Ethereum key", "why_tests_cant": "about 2^256 keys per type, mixed format with an untagged special case for P-256", "anchors": ["keypair/key.go: SerializePublicKey, DeserializePublicKey", "ec/key.go"]}
{"id": "C16", "title": "Public key serialization is injective across key types", "statement": "Two valid public keys of any types with equal serializations are the same key (type, algorithm, curve and coordinates): the untagged P-256 format cannot collide with tagged formats.", "quantifier": "every pair of valid public keys", "why_tests_cant": "all pairs of keys", "anchors": ["keypair/key.go: SerializePublicKey"]}
{"id": "C17", "title": "DeserializePublicKey never panics and never returns (nil, nil)", "statement": "On every input DeserializePublicKey returns either a key or an error.", "quantifier": "every byte string of any length", "why_tests_cant": "attacker-controlled input", "anchors": ["keypair/key.go: DeserializePublicKey", "ec/key.go: DecodePublicKey", "ec/decompress.go"]}
{"id": "C18", "title": "Public key encodings are not unique", "statement": "There are accepted encodings that do not re-serialize to themselves (trailing bytes, tagged P-256, uncompressed form, off-curve points): deserialize-then-serialize is not the identity on accepted inputs. For EdDSA and Ethereum labels it is the identity.", "quantifier": "witnesses for EC labels; every accepted input for the EdDSA and Ethereum labels", "why_tests_cant": "uniqueness is a universally quantified claim", "anchors": ["keypair/key.go: SerializePublicKey, DeserializePublicKey"]}
{"id": "C19", "title": "Private key serialization round trip", "statement": "DeserializePrivateKey(SerializePrivateKey(k)) returns k, including private scalars with leading zero bytes.", "quantifier": "every ECDSA/SM2 private key with 1<=D<N and matching public key on any of the six curves, every 64-byte Ed25519 key, every Ethereum key", "why_tests_cant": "about 2^256 keys per type", "anchors": ["keypair/key.go: SerializePrivateKey, DeserializePrivateKey", "ec/key.go: ConstructPrivateKey"]}
{"id": "C20", "title": "DeserializePrivateKey only returns EC keys whose public part belongs to the private part", "statement": "If DeserializePrivateKey returns an EC private key then its public coordinates are the curve's base-point multiple of its scalar and also equal the embedded public key; mismatching data gives an error.", "quantifier": "every byte string with an EC label", "why_tests_cant": "attacker-controlled input", "anchors": ["keypair/key.go: DeserializePrivateKey"]}
{"id": "C21", "title": "DeserializePrivateKey failure modes", "statement": "An unknown first byte yields no key and no error (nil, nil); the empty input panics; a one-byte input with an EC or EdDSA label panics; any other input of length >= 2 does not panic.", "quantifier": "every byte string", "why_tests_cant": "exact characterisation over all inputs", "anchors": ["keypair/key.go: DeserializePrivateKey"]}
{"id": "C22", "title": "ComparePublicKey is an equivalence that identifies exactly same-algorithm same-curve same-X keys", "statement": "On non-nil keys ComparePublicKey is reflexive, symmetric and transitive; for EC keys it returns true iff algorithm, curve name and X agree, so a key and its negation (different keys) compare equal; for Ed25519 and Ethereum keys it is exact equality.", "quantifier": "every pair/triple of public keys", "why_tests_cant": "all pairs of keys", "anchors": ["keypair/key.go: ComparePublicKey"]}
{"id": "C23", "title": "SortPublicKeys result does not depend on the input order", "statement": "The order used is a strict total order on serialisable keys, so any algorithm that sorts with respect to it (sort.Sort) yields the same list for every permutation of the same multiset of keys, and the output is a permutation of the input.", "quantifier": "every list of valid public keys and every permutation of it, every correct in-place sorting algorithm (sort.Sort is not stable)", "why_tests_cant": "all permutations of all lists; nodes must agree on multi-sig addresses built from the sorted list", "anchors": ["keypair/publist.go: SortPublicKeys, Less, Swap"]}
{"id": "C24", "title": "FindKey returns the first match", "statement": "FindKey returns the least index whose key compares equal, and -1 iff there is none.", "quantifier": "every list and key", "why_tests_cant": "all lists", "anchors": ["keypair/publist.go: FindKey"]}
{"id": "C25", "title": "WIF export/import round trip", "statement": "WIF2Key(Key2WIF(k)) returns k for every ECDSA P-256 private key; Key2WIF fails for every other key type/curve.", "quantifier": "every private scalar 0<=D<2^256 incl. leading zeros; every other key type", "why_tests_cant": "2^256 keys; base58 through decimal strings", "anchors": ["keypair/wif.go: Key2WIF, WIF2Key"]}
{"id": "C26", "title": "What WIF2Key accepts", "statement": "If WIF2Key succeeds, the base58 payload is exactly 38 bytes and its last four bytes are the double-SHA256 checksum of the first 34; the returned scalar is bytes 1..32. The version byte and the compression flag are not checked: any nonzero version byte and any flag are accepted. WIF2Key never panics.", "quantifier": "every input string", "why_tests_cant": "attacker-controlled input", "anchors": ["keypair/wif.go: WIF2Key"]}
{"id": "C27", "title": "GetP256KeyPairFromWIF agrees with WIF2Key but can panic", "statement": "Whenever WIF2Key succeeds GetP256KeyPairFromWIF returns the same key; on inputs whose payload is shorter than 4 bytes (e.g. the string \"1\") it panics instead of returning an error.", "quantifier": "every input string; witness for the panic", "why_tests_cant": "attacker-controlled input", "anchors": ["keypair/key.go: GetP256KeyPairFromWIF", "keypair/wif.go: WIF2Key"]}
{"id": "C28", "title": "Encrypted private key round trip", "statement": "DecryptWithCustomScrypt(EncryptWithCustomScrypt(k, addr, pwd, param), pwd, param) returns k for every non-empty password; with an empty password encryption succeeds but the result can never be decrypted. EncryptPrivateKey and DecryptPrivateKey do this with scrypt parameters N = 16384, r = 8, p = 8 and 64 bytes, and report a failing scrypt.", "quantifier": "every EC private key on the supported curves and every Ed25519 key, every address, password, salt and scrypt parameters with DKLen >= 32 (GCM is modelled, not assumed)", "why_tests_cant": "all keys, passwords and addresses", "anchors": ["keypair/encrypt.go: EncryptWithCustomScrypt, DecryptWithCustomScrypt"]}
{"id": "C29", "title": "A successfully decrypted protected key authenticates its ciphertext and address (GCM); the legacy CTR mode authenticates nothing", "statement": "If decryption of an aes-256-gcm record succeeds then the stored ciphertext is exactly the GCM sealing, under the key (last 32 bytes) and nonce (first 12 bytes) derived from (password, salt, parameters), of the returned key's secret with the stored address as associated data. The only other accepted EncAlg is the legacy aes-256-ctr, for which every ciphertext is accepted as an EC key whatever the password.", "quantifier": "every protected-key record, password and parameter set", "why_tests_cant": "attacker-controlled record", "anchors": ["keypair/encrypt.go: DecryptWithCustomScrypt"]}
{"id": "C30", "title": "Re-encryption preserves the private key", "statement": "If ReencryptPrivateKey(prot, old, new, po, pn) succeeds and new is non-empty, decrypting the result with (new, pn) yields the same private key as decrypting prot with (old, po), under the same address.", "quantifier": "every protected key and all passwords/parameters", "why_tests_cant": "all histories of re-encryption (closed under iteration)", "anchors": ["keypair/encrypt.go: ReencryptPrivateKey"]}
{"id": "C31", "title": "Signature serialization round trip", "statement": "For every signature that Sign can produce (any scheme, key type and curve) Deserialize(Serialize(sig)) succeeds and yields a signature with the same scheme, the same integers R,S / bytes, and the same SM2 user ID, except when the SM2 user ID contains a NUL byte, in which case the round trip never returns the signature. Serialize writes the documented format.", "quantifier": "every R,S in range, every scheme/curve, every ID", "why_tests_cant": "all integer values including those needing left padding; collision between the 64-byte legacy format and tagged formats", "anchors": ["signature/signature.go: Serialize, Deserialize, serializeDSA, deserializeDSA"]}
{"id": "C32", "title": "Signature.Deserialize never panics", "statement": "On every input Deserialize returns a signature or an error.", "quantifier": "every byte string", "why_tests_cant": "attacker-controlled input", "anchors": ["signature/signature.go: Deserialize, deserializeDSA"]}
{"id": "C33", "title": "A deserialized DSA signature cannot be re-serialized", "statement": "For every input that Deserialize accepts as an (EC)DSA or SM2 signature, calling Serialize on the result does not return: it panics (the curve is lost).", "quantifier": "every accepted DSA/SM2 signature encoding", "why_tests_cant": "universally quantified failure; unit tests exercise only the other direction", "anchors": ["signature/signature.go: Serialize, Deserialize"]}
{"id": "C34", "title": "Scheme and value mismatch is rejected by Serialize", "statement": "Serialize returns an error when an (R,S) or (R,S,ID) value or a value of unknown type is stored under a scheme it does not belong to. Byte-string values are the exception: they are accepted under every scheme byte, also SM3withSM2 and undefined schemes, and then give a mis-tagged encoding.", "quantifier": "every scheme byte and every value type", "why_tests_cant": "all combinations", "anchors": ["signature/signature.go: Serialize"]}
{"id": "C35", "title": "Sign then Verify succeeds", "statement": "If Sign returns a signature then Verify accepts it for the matching public key and same non-empty message, for every scheme/key combination, provided the underlying primitives verify their own signatures. For the empty message Verify is false; for Ethereum keys with applyHash and a 32-byte message Verify recomputes a different digest.", "quantifier": "every private key, scheme, non-empty message, all randomness", "why_tests_cant": "all messages and keys", "anchors": ["signature/signature.go: Sign, Verify"]}
{"id": "C36", "title": "End-to-end: sign, serialize, deserialize, verify", "statement": "Verifying the deserialization of the serialization of a produced signature succeeds.", "quantifier": "every private key, scheme, non-empty message (non-Ethereum-32-byte), ID without NUL", "why_tests_cant": "composition over all inputs", "anchors": ["signature/signature.go: Sign, Serialize, Deserialize, Verify"]}
{"id": "C37", "title": "Verify rejects scheme/key confusion", "statement": "Verify returns false for a nil signature, an empty message, an unknown scheme, an Ed25519 key with a non-EdDSA scheme, an Ethereum key with any scheme other than Keccak, an EC key with EdDSA or Keccak schemes, an SM2 value under an ECDSA scheme and vice versa.", "quantifier": "every key, message, signature", "why_tests_cant": "all combinations of type tags with all payloads", "anchors": ["signature/signature.go: Verify"]}
{"id": "C38", "title": "Verify on signatures received from the network: exact panic characterisation", "statement": "For EC public keys Verify panics exactly when the value is a byte string of an ECDSA scheme, the message is not empty and RecoverCompact of btcec panics; so never when RecoverCompact always returns (C82, C83 say when it does not). For Ed25519 public keys it never panics on the output of Deserialize. For Ethereum keys it panics exactly when the received signature is 0x0b followed by 1 to 62 bytes, so the two-byte signature 0b 01 crashes a verifier.", "quantifier": "every byte string fed to Deserialize followed by Verify, every message", "why_tests_cant": "attacker-controlled input", "anchors": ["signature/signature.go: Verify, Deserialize", "signature/secp256k1.go: Secp256k1Verify"]}
{"id": "C39", "title": "Sign rejects unsupported scheme/key combinations", "statement": "Sign returns an error, never a signature, for every scheme not supported by the key type, and the scheme recorded in a produced signature is the requested one.", "quantifier": "every key and scheme byte", "why_tests_cant": "all combinations", "anchors": ["signature/signature.go: Sign"]}
{"id": "C40", "title": "Scheme names", "statement": "GetScheme(Name(s)) = s for every defined scheme, Name panics for the others, GetScheme accepts exactly the spellings of the twelve names up to Unicode simple case folding (letter case, and the long s and Kelvin sign), and any other string is an error; GetHash is defined exactly for the 12 defined schemes.", "quantifier": "every scheme byte, every string", "why_tests_cant": "all strings", "anchors": ["signature/scheme.go: Name, GetScheme, GetHash"]}
{"id": "C41", "title": "ConvertToEthCompatible", "statement": "For a 65-byte SHA256withECDSA value v||r||s the result is r||s||(v-27 mod 256); the call overwrites the caller's buffer with the rotated bytes, so a second call yields a different result; a Keccak value, already r||s||v, is rotated as well.", "quantifier": "every 65-byte value", "why_tests_cant": "aliasing effects over all inputs", "anchors": ["signature/secp256k1.go: ConvertToEthCompatible"]}
{"id": "C42", "title": "SM2 signatures produced by Sign are accepted by Verify", "statement": "For every key with 1<=D<=N-2 and every id/message/randomness, if sm2.Sign returns (r,s) then sm2.Verify accepts it, in every group of prime order N in which the inverse of D+1, the base multiplication and the combined multiplication for this s and t are computed correctly.", "quantifier": "every private key, message, ID and random stream; every prime-order group with correct scalar multiplication", "why_tests_cant": "all keys, nonces and messages", "anchors": ["sm2/signature.go: Sign, Verify, getZ, randFieldElement"]}
{"id": "C43", "title": "SM2 Verify implements exactly the standard's acceptance condition", "statement": "sm2.Verify is total, rejects every curve other than the SM2 curve, and where CombinedMult is correct for s and t=(r+s) mod N it returns true iff 1<=r,s<=N-1, t is nonzero, [s]G+[t]P is not the point at infinity and (e + x) mod N = r.", "quantifier": "every public key, id, message, r and s (including negative and out of range)", "why_tests_cant": "all integers", "anchors": ["sm2/signature.go: Verify"]}
{"id": "C44", "title": "SM2 signature values are in range", "statement": "Every (r,s) returned by sm2.Sign has 1<=r<N, 1<=s<N and r+s not congruent to 0, and satisfies the signing equation s(1+D) = k - rD modulo N for a nonce k in [1, N-2] with r = e + x([k]G) mod N.", "quantifier": "every key and random stream", "why_tests_cant": "all random streams", "anchors": ["sm2/signature.go: Sign, randFieldElement"]}
{"id": "C45", "title": "SM2 Sign with D = N-1 never terminates", "statement": "For the private scalar D = N-1 no random stream makes sm2.Sign return a signature.", "quantifier": "every random stream of any length, every message", "why_tests_cant": "divergence cannot be tested", "anchors": ["sm2/signature.go: Sign"]}
{"id": "C46", "title": "SM2 identity hashing", "statement": "The empty ID is equivalent to the default ID; only the low 16 bits of the ID bit length are hashed; the hash input equals the standard's ZA input exactly when both public-key coordinates need all 32 bytes, and differs from the standard's when a coordinate has a leading zero byte. The digest does not depend on what was previously written to the caller's hasher.", "quantifier": "every ID, message, public key and prior hasher state", "why_tests_cant": "all coordinates, IDs, histories of the hasher", "anchors": ["sm2/signature.go: getZ"]}
{"id": "C47", "title": "SM2 non-malleability, and the one key for which it fails", "statement": "For fixed key, message and r, two accepted s values give points with the same x modulo N; for a key P other than -G with the same point, s is unique modulo N. The public key -G (private scalar N-1) accepts every s for a suitable r.", "quantifier": "every key, message, pairs of signatures", "why_tests_cant": "all signatures", "anchors": ["sm2/signature.go: Verify"]}
{"id": "C48", "title": "SM2 encryption round trip", "statement": "Encrypt returns exactly C1||C3||C2 of the first nonce whose derived key has a non-zero byte among its first 64 bytes (nonces as in C65, keyed by SHA-512 of X, entropy and the SM3 hash of the data). If no coordinate of an earlier, rejected nonce was longer than that of the final one, Decrypt of the ciphertext with the matching private key returns the data without error.", "quantifier": "every key pair, every non-empty plaintext, every random stream", "why_tests_cant": "all keys, plaintext lengths and coordinates with leading zeros", "anchors": ["sm2/encryption.go: Encrypt, Decrypt, sm3kdf"]}
{"id": "C49", "title": "SM2 Encrypt retry and empty-plaintext defects", "statement": "Encrypt of the empty plaintext never terminates for any random stream; for other data it returns 96+len bytes or keeps looping, never an error or panic, unless the source of entropy fails or the public key is the point at infinity (0,0): exactly then it returns an error. After a retry C1 is right exactly when no coordinate of an earlier nonce was longer than the final one; otherwise stale bytes remain (witness: a ciphertext that does not decrypt).", "quantifier": "every random stream (divergence); witness execution for the retry defect", "why_tests_cant": "divergence and 2^-8k probability events", "anchors": ["sm2/encryption.go: Encrypt, sm3kdf"]}
{"id": "C50", "title": "SM2 Decrypt failure modes", "statement": "Decrypt panics exactly when the slice has a capacity below 64 bytes; inputs of up to 96 bytes give an error; for longer inputs the outcome is exactly one of: C1 zero, C1 off the curve, derived key starting with zeros, plaintext with nil error when C3 matches, plaintext with an error when it does not. The hashed string for C3 is the standard's exactly when y2 is zero or needs all 32 bytes.", "quantifier": "every byte string as ciphertext", "why_tests_cant": "attacker-controlled input", "anchors": ["sm2/encryption.go: Decrypt"]}
{"id": "C51", "title": "SM2 KDF equals the standard KDF and its zero check is partial", "statement": "sm3kdf returns exactly the first kLen bytes of H(z||1)||H(z||2)||... ; it reports failure iff the first min(len z, kLen) bytes are all zero, which for kLen > len z rejects key streams that are not all zero (witness), for every longer length alike.", "quantifier": "every z and every length", "why_tests_cant": "all lengths", "anchors": ["sm2/encryption.go: sm3kdf"]}
{"id": "C52", "title": "VRF completeness", "statement": "If Vrf(sk, m) returns (vrf, nizk) then Verify(pk, m, vrf, nizk) = (true, nil).", "quantifier": "every supported key, message and randomness, over a prime-order group with correct curve operations", "why_tests_cant": "all keys, messages and nonces", "anchors": ["vrf/vrf.go: Vrf, Verify", "vrf/vrf_ec.go: Evaluate, ProofToHash"]}
{"id": "C53", "title": "VRF output is a function of key and message", "statement": "Two runs of Vrf with the same key and message return the same vrf value whatever the internal randomness.", "quantifier": "every pair of random choices", "why_tests_cant": "all random choices", "anchors": ["vrf/vrf_ec.go: Evaluate"]}
{"id": "C54", "title": "VRF Verify accepts exactly the valid proofs", "statement": "Verify returns an error exactly for unsupported keys and (false, nil) for wrong-length vrf or nizk; a vrf that does not decode to a curve point is rejected. It accepts exactly the inputs satisfying the proof relation (hash to point, two commitments, hash to integer). If coordinates fit the field it panics exactly when the vrf decodes and none of the 100 candidates for hashToCurve is on the curve.", "quantifier": "every key, message, vrf, nizk", "why_tests_cant": "attacker-controlled input", "anchors": ["vrf/vrf.go: Verify, ValidatePublicKey, getHash", "vrf/vrf_ec.go: ProofToHash"]}
{"id": "C55", "title": "VRF special soundness", "statement": "Two accepting transcripts for the same commitment with different challenges determine x with [x]G = pk and [x]H = vrf; so an accepted vrf with a wrong discrete log is possible for at most one challenge per commitment.", "quantifier": "every pair of accepting transcripts in a prime-order group", "why_tests_cant": "all adversarial provers", "anchors": ["vrf/vrf_ec.go: ProofToHash"]}
{"id": "C56", "title": "VRF proofs are malleable in t", "statement": "Replacing the response t by t+N (when it still fits the field) in an accepted proof gives another accepted proof: acceptance depends on t only modulo N.", "quantifier": "every accepted proof with t + N < 2^(8*byteLen)", "why_tests_cant": "all proofs", "anchors": ["vrf/vrf_ec.go: ProofToHash"]}
{"id": "C57", "title": "VRF hash helpers", "statement": "hashToInt returns the first candidate below N-1 plus one, so a value in [1, N-1], and diverges exactly if there is no such candidate; hashToCurve returns the first of 100 candidates that is on the curve with even y, or nothing after 100 failures, in which case Vrf panics. The abscissa is not reduced and can be P or more.", "quantifier": "every message and hash function", "why_tests_cant": "all hash outputs", "anchors": ["vrf/vrf_ec.go: hashToCurve, hashToInt"]}
{"id": "C58", "title": "VRF key validation", "statement": "ValidatePublicKey/ValidatePrivateKey accept exactly EC keys on P-224, P-256, P-384, SM2 and secp256k1 curves among all named curves (not P-521, not Ed25519, not Ethereum keys).", "quantifier": "every key", "why_tests_cant": "all keys", "anchors": ["vrf/vrf.go: ValidatePrivateKey, ValidatePublicKey, getHash"]}
{"id": "C59", "title": "Buffer aliasing: append on caller slices", "statement": "vrf.Verify and aes.AesEncrypt append to a caller-owned slice. When the slice has enough spare capacity exactly the needed bytes behind it in the caller's array are overwritten and nothing else; otherwise nothing of the caller's memory changes; the slice's own contents never change. The results are those computed from the memory before the call, except that Verify reads the message and AesEncrypt reads the IV after the write. So an IV stored right behind whole blocks of plaintext is replaced by sixteen bytes of value 16, and verifying another value against the nizk that Vrf returned replaces the vrf returned with it; verifying Vrf's own output changes nothing.", "quantifier": "every heap, slice, offset and capacity", "why_tests_cant": "all memory layouts", "anchors": ["vrf/vrf.go: Vrf, Verify", "aes/aes.go: AesEncrypt, PKCS5Padding"]}
{"id": "C60", "title": "Booth recoding is correct", "statement": "The signed digits produced by boothW5/boothW7 on the overlapping windows that p256ScalarMult and p256BaseMult read from a 256-bit scalar sum to the scalar, with magnitudes at most 16 and 64 and a non-negative top digit.", "quantifier": "every 256-bit scalar", "why_tests_cant": "2^256 scalars (each window is finite but the recombination is not)", "anchors": ["sm2/p256_amd64.go: boothW5, boothW7, p256BaseMult, p256ScalarMult"]}
{"id": "C61", "title": "SM2 scalar multiplication schedule is correct", "statement": "Given correct field and point routines, ScalarBaseMult is right for every scalar of any length; ScalarMult for every point of order N and every scalar except those congruent to N-6, where the last addition meets equal points and the result is (0,0); CombinedMult(s,t) for s not 0 modulo N except when t is 0 or N-6 modulo N or sG = tP, where it returns (0,0). Hence Verify accepts exactly the signatures the standard accepts, minus those with r+s = -6 modulo N or sG = (r+s)P. On the SM2 curve itself, with the point formulas of the assembly over exact field arithmetic, this holds for every pair satisfying the curve equation, and every signature made with D in [1, N-2] is accepted unless one of the two exceptions applies.", "quantifier": "every scalar and every point of a group with curve-like coordinates", "why_tests_cant": "2^256 scalars", "anchors": ["sm2/p256_amd64.go: p256ScalarMult, p256BaseMult, ScalarMult, ScalarBaseMult", "sm2/p256_amd64.go: CombinedMult"]}
{"id": "C62", "title": "SM2 modular inversions", "statement": "Inverse(k) returns for every integer k the inverse of |k| modulo N, reduced, and 0 for multiples of N; so it inverts k exactly when k >= 0 (for negative k the sign is dropped). p256Inverse inverts every field element in Montgomery form (0 for 0), reduced or not: the two hand-written addition chains compute exactly the exponents N-2 and P-2.", "quantifier": "every integer k; every field element", "why_tests_cant": "2^256 inputs", "anchors": ["sm2/p256_amd64.go: Inverse, p256Inverse"]}
{"id": "C63", "title": "Curve and Montgomery constants are right", "statement": "All hard-coded domain parameters are consistent: p and N are prime, the base point is on the curve, the multiples of the base point that are infinity are those of N, N kills every point of the curve, and the Montgomery constants (RR mod N, rr mod p, base point in Montgomery form) are what they must be.", "quantifier": "closed facts (primality quantifies over all divisors)", "why_tests_cant": "primality and group order are universally quantified facts", "anchors": ["sm2/curves.go: initP256", "sm2/p256_amd64.go: RR, rr, basePoint"]}
{"id": "C64", "title": "SM2 assembly field arithmetic", "statement": "The amd64 Montgomery multiplication, squaring, from-Montgomery, negate and select routines return the specified residue for all 4-limb inputs; the subtraction routine used by the point formulas does NOT: it returns non-reduced and, for some inputs, wrong residues (missing the fix for the 2017 P-256 carry bug). The byte-order conversions are right in both directions. The declared but unused squaring modulo the group order is wrong. Its first part, up to the reduction, is right: it leaves the square in eight registers.", "quantifier": "every 256-bit operand pair", "why_tests_cant": "carry bugs of probability 2^-32 or less are invisible to random tests", "anchors": ["sm2/p256_asm_amd64.s: p256_sm2Mul, p256_sm2Sqr, p256_sm2OrdMul, p256_sm2FromMont, p256_sm2NegCond, p256_sm2SubInternal, p256_sm2PointAddAsm, p256_sm2BigToLittle, p256_sm2OrdSqr"]}
{"id": "C65", "title": "SM2 nonce derivation", "statement": "sm2.Sign returns exactly the signature of the first acceptable nonce among k_i = (40-byte piece i of the AES-CTR key stream under the first 32 bytes of SHA-512(D bytes, entropy, digest), counter block 'IV for <SM2> CTR') mod (N-2) + 1.", "quantifier": "every key, id, message, hasher state, entropy string, any number of retries", "why_tests_cant": "retries have negligible probability and all inputs are quantified", "anchors": ["sm2/signature.go: Sign, randFieldElement"]}
{"id": "C66", "title": "What signature.Verify accepts", "statement": "Verify returns true exactly when the message is non-empty and the primitive of the recorded scheme accepts: ECDSA on the digest of the named hash; compact signatures from which both coordinates of the key are recovered; SM2; Ed25519 with a 32-byte key; Ethereum on the message itself when it has 32 bytes and on its Keccak digest otherwise, ignoring the recovery byte.", "quantifier": "every public key, message and signature value; all primitives", "why_tests_cant": "all combinations of key type, scheme and value", "anchors": ["signature/signature.go: Verify", "signature/secp256k1.go: Secp256k1Verify"]}
{"id": "C67", "title": "SM2 multiplication on the assembly, clean runs", "statement": "The amd64 point doubling and addition routines compute the group operation of the SM2 curve whenever no subtraction inside them leaves a nonzero difference below 2^256 - p unreduced; ScalarBaseMult, ScalarMult and CombinedMult built from them return the correct multiple whenever their result depends only on such clean calls.", "quantifier": "every scalar byte string, every point of the curve, every representation of it in Jacobian coordinates with X, Y at most p", "why_tests_cant": "states for which inputs of a 2^512 space the code is right; the exceptions have probability about 2^-25", "anchors": ["sm2/p256_asm_amd64.s: p256_sm2PointDoubleAsm, p256_sm2PointAddAsm, p256_sm2PointAddAffineAsm", "sm2/p256_amd64.go: ScalarBaseMult, ScalarMult, CombinedMult"]}
{"id": "C68", "title": "SM2 scalar multiplication is wrong for some points", "statement": "There is a point P of the SM2 curve with coordinates below p such that ScalarMult(P, 4), run on the amd64 assembly routines, returns a pair that is not on the curve and therefore is not 4P.", "quantifier": "exists a point and a scalar", "why_tests_cant": "the wrong results have probability about 2^-25 per multiplication", "anchors": ["sm2/p256_asm_amd64.s: p256_sm2SubInternal, p256_sm2PointDoubleAsm", "sm2/p256_amd64.go: ScalarMult"]}
{"id": "C69", "title": "The SM2 assembly is oblivious", "statement": "For each routine of the SM2 amd64 assembly, the executed instructions and the memory words each of them accesses depend only on the slice pointers passed (and, for the repeated squaring, on the number of repetitions): two runs that agree in these pass through the same instructions and addresses, whatever the operands, table indices, condition flags, digits and memory contents are.", "quantifier": "for all memory contents and arguments", "why_tests_cant": "tests compare results; a table access or a branch that depends on a secret does not change any result", "anchors": ["sm2/p256_asm_amd64.s: all functions", "sm2/p256_amd64.go: p256SelectBase, p256Select, p256MovCond, p256PointAddAffineAsm"]}
{"id": "C70", "title": "Key pair generation", "statement": "GenerateKeyPair for ECDSA and SM2 keys takes the first chunk of random bytes whose scalar (the low bits of the chunk, 0x42 added without carry to its second byte) is below the order; each scalar below the order belongs to the same number of chunks. The two keys belong together, are valid and survive serialization - unless the scalar is 0, which is not excluded and whose key does not survive serialization, and except that for SM2 the scalar N-1 is not excluded, with which Sign does not terminate. Public of an Ethereum private key is not an Ethereum public key: using it panics. Wrong requests are refused; when the random source fails for EC and EdDSA keys, the returned interface values are not nil.", "quantifier": "for all random bytes, key types, options and curves", "why_tests_cant": "the bad scalars have probability 2^-256, rejected chunks about 2^-32, and tests do not check Public of generated Ethereum keys", "anchors": ["keypair/key.go: GenerateKeyPair", "ec/key.go: GenerateECKeyPair, Public"]}
{"id": "C71", "title": "SM2 encryption on the SM2 curve", "statement": "With the multiplications of p256_amd64.go on the SM2 curve itself, Encrypt under the public key of D, D in [1,N-1] other than N-6, returns a ciphertext that Decrypt turns into the data again, if the first nonce is not N-6 and the derived key has a non-zero byte among its first 64; the same holds with the routines of the assembly if the three multiplications make no unreduced difference. The nonce N-6 makes Encrypt use the shared point (0,0): everything behind C1 is independent of the key and anybody can read the data. The private key N-6 makes Decrypt use (0,0) for every C1: it accepts exactly what anybody can make without a key.", "quantifier": "for all keys, entropy, AES and SHA-512 functions, and data below 2^60 bytes", "why_tests_cant": "the exceptional scalars and the unreduced differences have negligible or small probability in random tests", "anchors": ["sm2/encryption.go: Encrypt, Decrypt", "sm2/p256_amd64.go: ScalarMult, ScalarBaseMult"]}
{"id": "C72", "title": "The VRF on the SM2 curve", "statement": "With the multiplications of p256_amd64.go on the SM2 curve itself, Vrf returns exactly: D H for the point H hashed from the public key and the message, and the proof (s, r - s D) with s hashed from the base point, H, the key, the output, r G and r H, for D and r other than N-6. Verify accepts these proofs if the two halves are not N-6 either. The private key N-6 gives the same 65 bytes as output for every message, and Verify rejects them with every proof and every key.", "quantifier": "for all keys, messages, random scalars, square-root draws and hash functions of the right length", "why_tests_cant": "the exceptional scalars are not met by random tests; tests compare no intermediate value", "anchors": ["vrf/vrf.go: Vrf, Verify", "vrf/vrf_ec.go: Evaluate, ProofToHash", "sm2/p256_amd64.go: ScalarMult"]}
{"id": "C73", "title": "Curve names", "statement": "GetNamedCurve and GetNamedCurveLabel accept exactly the spellings of the six curve names, in any mixture of cases and with the long s (U+017F) for s, and the empty string for secp256k1; a string spells at most one curve. In a protected key the names of algorithm and curve are not authenticated: with them replaced, decryption with the right password gives the same secret as a key of the other algorithm on the other curve.", "quantifier": "for all strings; for all keys, passwords, salts and KDF outputs", "why_tests_cant": "tests try a handful of names; Unicode case mapping is not met by ASCII tests", "anchors": ["keypair/ecurves.go: GetNamedCurve, GetNamedCurveLabel", "keypair/encrypt.go: DecryptWithCustomScrypt"]}
{"id": "C74", "title": "Ethereum keys", "statement": "FromEthereumPrivateKey of a secp256k1 key gives a pair that GetEthereumPubKey and GetKeyType recognise and that survives serialization of both parts; GetEthereumPubKey succeeds exactly for keys of type PK_ETHECDSA. The curve of the key is not checked: for a key on another curve SerializePublicKey panics if a coordinate has more than 32 bytes, and otherwise writes 66 bytes that DeserializePublicKey refuses unless the coordinates satisfy the secp256k1 equation.", "quantifier": "for all keys, coordinates and curves", "why_tests_cant": "tests only convert secp256k1 keys", "anchors": ["keypair/key.go: FromEthereumPrivateKey, GetEthereumPubKey, GetKeyType, SerializePublicKey, DeserializePublicKey"]}
{"id": "C75", "title": "Generic curve arithmetic", "statement": "For the parameters of P-224, P-256, P-384, P-521 and SM2 (and every y^2 = x^3 - 3x + b over a prime field without singular points and with b not 0) the methods of elliptic.CurveParams compute the group law of the curve: IsOnCurve decides the equation; Add and Double are right for all pairs of points, including infinity (0, 0), equal and opposite points and unreduced coordinates; ScalarMult and ScalarBaseMult give the multiple for every byte string as scalar, reduced. For a point off the curve ScalarMult computes on the curve with another b through that point.", "quantifier": "for all points, integers as coordinates, and byte strings as scalars", "why_tests_cant": "exceptional cases of the Jacobian formulas (equal or opposite intermediate points) are not met by random tests", "anchors": ["sm2/curves.go: p256Curve", "crypto/elliptic: CurveParams (embedded)", "sm2/signature.go: Verify", "vrf/vrf_ec.go: Verify"]}
{"id": "C76", "title": "SM2 and VRF without the assembly", "statement": "Where p256_amd64.go is not compiled in, sm2.Verify accepts exactly the signatures of the standard for every key on the curve, every signature that Sign returns is accepted, the private key N - 1 never signs, encryption round-trips and VRF proofs verify, without exceptional scalars. amd64 with correct assembly routines accepts exactly these signatures except those with r + s = -6 modulo N or s G = (r + s) P.", "quantifier": "for all keys, messages, user IDs, nonces, signatures and hash functions", "why_tests_cant": "the platforms differ on inputs that random tests do not meet, and tests run on one platform", "anchors": ["sm2/signature.go: Sign, Verify, fermatInverse", "sm2/encryption.go: Encrypt, Decrypt", "vrf/vrf_ec.go: Evaluate, Verify"]}
{"id": "C77", "title": "Points of P-256 and SM2", "statement": "P-256 and the SM2 curve have exactly N - 1 pairs of coordinates satisfying the equation, N prime, and each is ScalarBaseMult of exactly one private key in [1, N-1]. For every pair accepted by IsOnCurve: ScalarMult gives (0, 0) exactly for multiples of N and otherwise a point on the curve; two scalars give the same point iff equal modulo N; Add of two multiples is the multiple by the sum; a multiple of a multiple is the multiple by the product; hence key agreement commutes.", "quantifier": "for all points and all byte strings as scalars", "why_tests_cant": "it is about all 2^256 points; a point of another order or outside the group generated by G is not found by trying", "anchors": ["keypair/key.go: GetPublicKey, DeserializePublicKey", "ec/key.go: ConstructPrivateKey", "sm2/curves.go: p256Curve", "crypto/elliptic: CurveParams (embedded)"]}
{"id": "C78", "title": "ECDSA on P-256 and SM2", "statement": "With the generic methods of the curve, crypto/ecdsa.Verify always returns and accepts (r, s) exactly when 1 <= r, s < N and the point (e/s)G + (r/s)P is not zero and has abscissa r modulo N, e the leading bits of the digest. Sign returns (r, s) exactly when it is the signature of the first nonce of the AES-CTR key stream with r and s non-zero; Verify accepts it. (r, N-s) is accepted with (r, s); the keys accepting (r, s) are exactly (sQ - eG)/r with x(Q) = r mod N; two signatures with one nonce give the private key; bytes of the digest after the order's length are ignored. On amd64 with the SM2 curve Verify refuses exactly the valid signatures with r + 6s = 0 mod N or eG = rP (for e not 0 mod N).", "quantifier": "for all private keys, points, digests, signatures, entropy and number of attempts", "why_tests_cant": "signatures, digests and keys are 256-bit values; the refused signatures are never met by chance", "anchors": ["signature/signature.go: Sign, Verify", "sm2/p256_amd64.go: CombinedMult, Inverse", "crypto/ecdsa: Sign, Verify"]}
{"id": "C79", "title": "Signatures from the private key to the bytes received, P-256 and SM2", "statement": "For a public key on P-256 or the SM2 curve, a receiver (Deserialize, then Verify) accepts a byte string for a non-empty message exactly when it is: 64 bytes r||s, or a scheme byte 0-8 and two numbers of equal length, that satisfy the ECDSA equation for the leading 256 bits of the digest; or a scheme byte 0-8 and a 65-byte secp256k1 signature recovering to the key's coordinates; or, for SM2 keys, 9, an ID without zero bytes, 0 and two numbers of equal length that satisfy the SM2 equation (and not 64 bytes in all). With one such ECDSA string, all others with the same numbers or N - s are accepted. What Sign returns for a private key read by DeserializePrivateKey has the documented wire format and is accepted by a receiver who got the public key and the signature as bytes, for every scheme 0-9, nonce and message.", "quantifier": "for all keys, messages, byte strings, schemes, hash functions and randomness", "why_tests_cant": "the accepted byte strings are characterised by group equations over 256-bit numbers; all lengths and all schemes", "anchors": ["signature/signature.go: Sign, Verify, Serialize, Deserialize", "keypair/key.go: SerializePublicKey, DeserializePublicKey, DeserializePrivateKey", "sm2/signature.go: Sign, Verify"]}
{"id": "C80", "title": "The VRF on P-256 and SM2, end to end over the real group", "statement": "On P-256 and the SM2 curve with the methods of elliptic.CurveParams: Vrf returns exactly (D*H, s || (r - s*D) mod N) with H the hashed point and s the challenge hashed from G, H, the key, the output, r*G and r*H. Verify answers (true, nil) exactly for the proofs s || t whose s is the challenge of t*G + s*PK and t*H + s*U, U a point other than infinity. So honest proofs are accepted. For the right output U = D*H the commitments must be r*G and r*H, and each challenge then has exactly the answer r - s*D mod N; for any wrong output and any commitments there is exactly one challenge modulo N that can be answered, so an accepted proof of a wrong output means that the hash function hit that one value. The response counts modulo N only.", "quantifier": "for all keys (reduced or not), messages, proofs, random numbers and hash functions with outputs of the right length", "why_tests_cant": "statements about all proofs and all group elements of two groups of order about 2^256", "anchors": ["vrf/vrf.go: Vrf, Verify", "vrf/vrf_ec.go: Evaluate, ProofToHash, hashToCurve, hashToInt"]}
{"id": "C81", "title": "Clearing of private keys in the WIF functions", "statement": "On a heap of byte arrays Key2WIF, WIF2Key and GetP256KeyPairFromWIF return what they return without it. On success Key2WIF leaves the array returned by SerializePrivateKey all zero and touches no other array, so the array of D.Bytes() still holds the key; and since bytes.Buffer starts with 64 bytes and 67 are written, the abandoned first array still holds type, curve and the 32 bytes of the key. A key that is refused is serialized and nothing of it is overwritten. WIF2Key overwrites the decoded text but not its copy in a string (a '0' for every leading '1' of the input, then the shortest decimal numeral of the payload), and the bytes of the payload only when it returns a key: after a wrong checksum or length they stay. GetP256KeyPairFromWIF overwrites them on every way out, also when it panics.", "quantifier": "for all keys, texts, heaps, hash functions and growth policies of bytes.Buffer (the abandoned array: policies that start with 64 bytes)", "why_tests_cant": "memory that nothing refers to is not visible to a test", "anchors": ["keypair/wif.go: Key2WIF, WIF2Key, clearBytes", "keypair/key.go: SerializePrivateKey, GetP256KeyPairFromWIF"]}
{"id": "C82", "title": "Compact signatures on secp256k1", "statement": "Secp256k1Verify accepts a byte string exactly when it is 65 bytes long, its header is 27 + it or 31 + it with it from 0 to 3, and r Q + e G = s R for the key Q and the point R named by r and it (and, in versions of btcec that test it, r and s lie between 1 and N - 1). Such an it exists, and only one, exactly when (r, s) satisfies the ECDSA equation. With every accepted string exactly three others with the same r and s up to sign are accepted: the other header, and N - s with the parity bit flipped; so the signatures are malleable. With the range tests it never panics; without them it panics exactly when r is a multiple of N and names a point, which happens on secp256k1 for r = N. Secp256k1Sign returns header 27 + it, r and the smaller of s and N - s for the nonce, fails exactly when r or s is 0, and what it returns is always accepted by Secp256k1Verify, whatever public key stands beside the private one.", "quantifier": "for all digests, signatures, keys, nonces in 1..N-1, both versions of btcec and every curve y^2 = x^3 + b of the stated kind (secp256k1 is an instance); operations on points that compute in the group", "why_tests_cant": "exact characterisation over all 65-byte strings and keys; the panic needs r = N", "anchors": ["signature/secp256k1.go: Secp256k1Sign, Secp256k1Verify"]}
{"id": "C83", "title": "Signatures from the private key to the bytes received, secp256k1", "statement": "For a secp256k1 key, a receiver (Deserialize, then Verify) accepts a byte string for a non-empty message exactly when it is 64 bytes r||s, or a scheme byte 0-8 and two numbers of equal length, that satisfy the ECDSA equation; or a scheme byte 0-8 and a 65-byte compact signature that names the key. SM2 signatures are never accepted. For r and s in range, the compact form with some header is accepted exactly when the form without header is, and then for exactly two headers. The receiver panics, with EC keys of any curve and only when btcec does not test the range of r, exactly on a scheme byte 0-8 and a compact signature whose r is a multiple of N that names a point; for example r = N. Sign uses neither randomness nor options, returns the compact signature of the nonce of the digest with the smaller s, and what it returns is accepted, also after keys and signature have travelled as bytes.", "quantifier": "for all keys, messages, byte strings, schemes 0-8, hash functions, nonces in 1..N-1, both versions of btcec; operations on points that compute in the group", "why_tests_cant": "the accepted byte strings are characterised by group equations over 256-bit numbers", "anchors": ["signature/signature.go: Sign, Verify, Serialize, Deserialize", "signature/secp256k1.go: Secp256k1Sign, Secp256k1Verify", "keypair/key.go: DeserializePrivateKey, SerializePublicKey, DeserializePublicKey"]}
{"id": "C84", "title": "Ethereum signatures from the private key to the bytes received", "statement": "For an Ethereum key a receiver (Deserialize, then Verify) accepts a byte string for a non-empty message exactly when it is 0x0b, the 64 bytes of r and s, and anything after them, where (r, s) satisfies the ECDSA equation for the digest and s is at most N/2; the digest is the message itself if it has 32 bytes, else its Keccak hash. Hence (r, N - s) is refused where (r, s) is accepted, and the recovery byte is not looked at. go-ethereum built with cgo (libsecp256k1) and without (btcec) answers every input alike, panics included. Sign returns r, the smaller of s and N - s, and the number v from which the key is recovered, for the first candidate nonce of use (cgo; keys outside 1..N-1 are refused) or for the one nonce of the digest (Go); both give the same bytes when the nonces agree. What one build signs both accept, also after keys and signature have travelled as bytes, unless opt = true with a message of 32 bytes. ConvertToEthCompatible turns a compact signature accepted for an EC key into one accepted for the Ethereum key over the digest exactly when r and s are in range and s < N/2, and turns what Sign makes for the EC key into what Sign makes for the Ethereum key.", "quantifier": "for all keys, messages, byte strings, options, hash functions (32 bytes for Keccak), nonces, both builds; operations on points that compute in the group", "why_tests_cant": "the accepted byte strings are characterised by group equations over 256-bit numbers, and the two builds are never run together", "anchors": ["signature/signature.go: Sign, Verify, Serialize, Deserialize, ConvertToEthCompatible", "keypair/key.go: DeserializePrivateKey, SerializePublicKey, DeserializePublicKey"]}
{"id": "C85", "title": "Ed25519 signatures from the seed to the bytes received", "statement": "The curve -x^2 + y^2 = 1 + d x^2 y^2 modulo the prime 2^255 - 19 with the constants of the library is a group whose base point B has the prime order L. Bytes are read as the point whose y is the low 255 bits modulo p and whose x has the parity of the top bit (ignored if x = 0), and refused exactly when there is none; points are written canonically. A receiver (Deserialize, then Verify) accepts a byte string for an Ed25519 key and a non-empty message exactly when it is 0x0a, R, s with s < L, R the encoding of a point with R + k A = s B and k the hash of R, key and message modulo L; so s cannot be changed. A key made from a seed has the scalar a, a multiple of 8 in [2^254, 2^255), and the public point a B, never neutral; signing gives R = r B, s = r + k a modulo L, and what is signed with the key of any seed is accepted, also after keys and signature have travelled as bytes. Conversely: whoever knows a modulo L signs; a private key with another public half gives signatures with the same R from which a modulo L follows; exactly four encodings are read as the neutral element, and under them a signature is valid for every message.", "quantifier": "for all seeds, keys, messages, byte strings, and functions with outputs of 64 bytes for SHA-512", "why_tests_cant": "acceptance is a group equation over 255-bit numbers; the statement covers every seed, every byte string, and the order of the base point", "anchors": ["keypair/key.go: GenerateKeyPair, SerializePrivateKey, DeserializePrivateKey, SerializePublicKey, DeserializePublicKey", "signature/signature.go: Sign, Verify, Serialize, Deserialize"]}
{"id": "C86", "title": "A private key survives every way of storing it and still signs", "statement": "Take a valid private key on any curve. After any sequence of: writing it to bytes and reading it, exporting it as WIF and importing it with either importer, encrypting it, changing the password any number of times and decrypting it, it is the same key. Files are open to all keys, encryption to all but Ethereum keys (decryption succeeds exactly when the password is not empty, and the address is kept), WIF exactly to ECDSA keys on P-256. The generic base-point multiplication ignores leading zeros of the scalar on every curve. A key that GenerateKeyPair returns for P-256 or the SM2 curve is valid or has the scalar 0 and the point (0, 0); when it is not 0, a signature made with what is left of it after any such sequence is accepted by a receiver who has the public key and the signature as bytes; the same holds for Ed25519 keys. The scalar 0 can be encrypted and exported but never comes back from a file.", "quantifier": "for all keys, sequences of storage operations, passwords, salts, parameters, random sources, messages, and functions of the right shape for SHA-256, scrypt and the block cipher", "why_tests_cant": "the sequences of operations and the passwords are unbounded, and that the signature of the reloaded key verifies is a fact about the curve group for every key", "anchors": ["keypair/key.go: GenerateKeyPair, SerializePrivateKey, DeserializePrivateKey, SerializePublicKey, DeserializePublicKey, GetP256KeyPairFromWIF", "keypair/wif.go: Key2WIF, WIF2Key", "keypair/encrypt.go: EncryptWithCustomScrypt, DecryptWithCustomScrypt, ReencryptPrivateKey", "signature/signature.go: Sign, Verify, Serialize, Deserialize"]}
{"id": "C87", "title": "The secp256k1 signers use exactly the nonces of RFC 6979", "statement": "HMAC as coded is that of RFC 2104. For every private key of 256 bits and every digest, btcec's nonce is the first round of RFC 6979 in the range 1..N-1, it runs on exactly as long as no round is in the range, and it never panics; each round of libsecp256k1's nonce function is the round of RFC 6979 for the seed key || message. The seed determines the key and the digest modulo the order, so digests signed with nonces from one seed get the same signature. The signature that btcec returns is the ECDSA signature with that nonce, low s and the recovery header. go-ethereum with and without cgo return the same bytes for a digest below the order when the nonce gives r and s that are not 0; the seeds of the two builds coincide exactly for digests below the order. A signature made this way with a key read from bytes is accepted by a receiver who has the public key and the signature as bytes.", "quantifier": "for all private keys, digests, messages, numbers of rounds and hash functions with 32-byte outputs", "why_tests_cant": "the retry branch is reached with probability about 2^-128 and digests above the order with the same probability, so no test sees either; that a seed is never shared by two equations is a statement about all pairs of keys and digests", "anchors": ["signature/secp256k1.go: Secp256k1Sign", "signature/signature.go: Sign"]}
{"id": "C88", "title": "P-224: the points, compressed keys without exceptions, and ECDSA from the private key to the bytes received", "statement": "The order N of P-224 is prime, the curve has exactly N - 1 affine points, and each is the public key of exactly one private key. No point has y = 0, so for every point the compressed encoding is read back as the point exactly when a usable number is among the random draws, and an encoding of the right length is refused only when no point has that x. ECDSA verification accepts exactly the pairs that satisfy the equation of FIPS 186-4, with the digest cut to 224 bits; the receiver of a byte string accepts exactly the listed forms. A signature made with a private key read from bytes is 57 bytes long on the wire and is accepted with the public key, which the receiver reads back from its bytes as soon as it has drawn a usable number.", "quantifier": "for all points, keys, messages, digests, byte strings, random draws, nonces and hash functions", "why_tests_cant": "that no x among 2^224 has y = 0, the number of points and the uniqueness of keys are statements about the whole curve; the exact set of accepted byte strings is infinite", "anchors": ["ec/decompress.go: deCompress, curveSqrt", "ec/key.go: EncodePublicKey, DecodePublicKey", "keypair/key.go: DeserializePrivateKey, DeserializePublicKey", "signature/signature.go: Sign, Verify, Deserialize"]}
{"id": "C89", "title": "edwards25519: all points, keys of small order, and what Ed25519 verification does outside the group of the base point", "statement": "The curve has exactly 8 L points and they are the multiples of one; the multiples of the base point are the points P with L P = 0; exactly eight listed points satisfy 8 P = 0, and exactly 14 byte strings are read as one of them. Every point is a B + j T for a point T of order 8. For a key a B + j T and an R = r B + i T, Verify accepts exactly when s < L, s = r + k a modulo L and i + k j = 0 modulo 8; the equation of RFC 8032 with the cofactor needs only the first two, so Verify accepts no more than it, and for a key in the group of the base point exactly when it holds and R lies in that group. A signature accepted for one message is accepted for another exactly when the difference of the challenges annihilates the key: for keys not of small order, and so for every key made from a seed, exactly when the challenges are equal.", "quantifier": "for all points, byte strings, keys, messages, signatures, seeds and hash functions with the format of SHA-512", "why_tests_cant": "the number of points and the list of all small-order encodings concern 2^256 byte strings; acceptance for a second message quantifies over all messages and keys", "anchors": ["keypair/key.go: DeserializePublicKey, GenerateKeyPair", "signature/signature.go: Verify", "golang.org/x/crypto/ed25519: Verify, NewKeyFromSeed"]}
{"id": "C90", "title": "What decoded keys and signatures share with the buffer they were read from", "statement": "On a memory of arrays and slices: Deserialize, DeserializePrivateKey and DeserializePublicKey write to no array of the caller and return the values of the model without memory. Whatever the caller writes to its arrays afterwards, a decoded signature keeps its value, except that the value of an ECDSA scheme with 65 bytes is at any time the present content of the buffer; a decoded private key keeps its value, except that an Ed25519 key is at any time the present content of the buffer from byte 2 on, so that clearing the buffer or reading another key into it replaces the key; a decoded public key always keeps its value. ConvertToEthCompatible changes no byte outside its argument, and a signature decoded from the same buffer earlier changes with it. SM4 reads its source before it writes: for every overlap of source and destination the first 16 bytes of the destination become the output and nothing else changes; a destination of n < 16 bytes has received n bytes of the output when the call panics.", "quantifier": "for all memories, slices, overlaps, byte strings, keys and all later writes of the caller", "why_tests_cant": "sharing shows only when a buffer is written after decoding, and overlap and later writes range over all memories", "anchors": ["signature/signature.go: Deserialize", "signature/secp256k1.go: ConvertToEthCompatible", "keypair/key.go: DeserializePrivateKey, DeserializePublicKey", "sm4/block.go: cryptBlock"]}
{"id": "C91", "title": "The random bytes that signing and encryption read", "statement": "io.ReadFull gives the next n bytes of a source in whatever pieces they arrive, and otherwise the error of the source, or 'unexpected EOF' if it ends in the middle. ECDSA and SM2 signing and sm2.Encrypt read half the field size rounded down (P-224 14, 256-bit curves 16, P-384 24, P-521 32 bytes), ECDSA after at most one dropped byte; a private key is encrypted under a salt of the next 16 bytes. With fewer bytes they return the error and no signature, ciphertext or key. The results depend on the source only through these bytes, so the signatures of one digest by one key are at most 256^n (2^128 for SM2). Key, entropy and digest are determined by the seed of the nonces when the key or the digest length is fixed, so a source that repeats itself still gives another seed for another digest. signature.Sign on a source of 17 bytes or more returns signatures that Verify accepts, and on a source of less than 16 an error.", "quantifier": "for all readers (any pieces, any final error), keys, curves, digests, messages and IDs", "why_tests_cant": "the reader's pieces, its contents and the keys are unbounded, and the number of reachable signatures cannot be counted by running", "anchors": ["sm2/signature.go: Sign", "sm2/encryption.go: Encrypt", "keypair/encrypt.go: randomBytes, EncryptWithCustomScrypt", "signature/signature.go: Sign"]}
{"id": "C92", "title": "scrypt in key encryption", "statement": "scrypt.Key as kdf calls it computes scrypt of RFC 7914 with PBKDF2-HMAC of RFC 8018: salsaXOR is Salsa20/8 of the exclusive or, blockMix is scryptBlockMix and smix is scryptROMix whatever the reused arrays hold. It succeeds for N a power of two above 1, R and P positive, R*P < 2^30 and N*R < 2^56, and the key has the requested length; other N and too large or negative parameters give the two errors; P = 0, or R = 0 with P > 0 or P <= -2^56, divides by zero. With accepted parameters every supported private key is sealed under the key and nonce that RFC 7914 derives and decrypts to itself; with the default parameters (16384, 8, 8, 64) this never fails; with the parameters that divide by zero encryption and decryption panic.", "quantifier": "for all passwords, salts, parameters of type int with lengths up to (2^32-1)*32, keys and addresses, over a hash of 32 bytes and a block cipher", "why_tests_cant": "the values of the parameters and inputs are unbounded, and the memory that scrypt mixes depends on all of them", "anchors": ["keypair/encrypt.go: kdf, EncryptWithCustomScrypt, DecryptWithCustomScrypt, EncryptPrivateKey, DecryptPrivateKey"]}
{"id": "C93", "title": "Inverses computed by math/big", "statement": "ModInverse(g, n), computed by the extended Euclidean algorithm, returns for every integer g and every n > 1 the number i with 0 <= i < n and i*g = 1 modulo n, and nil exactly if g and n are not coprime; modulo a prime it is g^(n-2). So Verify of crypto/ecdsa and Add, Double, ScalarMult and ScalarBaseMult of the curves, with this inverse and a panic on nil, never panic and return what the models of the other properties return, for all coordinates, on the curve or not, and all scalars. Only a Jacobian z that is a nonzero multiple of the prime would panic.", "quantifier": "for all integers, moduli above 1, curves with prime P and N, coordinates and scalars", "why_tests_cant": "the integers, moduli and coordinates are unbounded", "anchors": ["signature/signature.go: Verify", "sm2/signature.go: Verify", "sm2/encryption.go: Encrypt, Decrypt", "vrf/vrf.go: Verify", "vrf/vrf_ec.go"]}
{"id": "C94", "title": "Protected keys and changes of password", "statement": "With scrypt filled in, decryption returns a key exactly if the password is not empty, the parameters are usable and the record holds, under the key that RFC 7914 derives, octets from which the key is rebuilt; encryption returns exactly the record sealed under that key. Decryption panics exactly on parameters that make scrypt divide by zero, with a password and a known encryption; encryption on those and on keys it cannot store; re-encryption if decryption does, or if it succeeds and the new parameters divide by zero. Re-encryption succeeds exactly if the old password opens the record and the new parameters are usable; the new record keeps address and kind of key and opens to the same key, or never if the new password is empty. A key encrypted and re-encrypted any number of times opens under the last password; with SHA-256, AES, the curves of the package and the default parameters nothing is left open. Every key that GenerateKeyPair draws on P-256 or the SM2 curve, other than the scalar 0, and every Ed25519 key, survives this, and its signatures, sent as bytes, are accepted by the holder of the bytes of its public key.", "quantifier": "for all records, passwords, salts, addresses, keys, parameters of type int with lengths up to (2^32-1)*32, and lists of password changes", "why_tests_cant": "records, passwords, parameters and the number of changes are unbounded", "anchors": ["keypair/encrypt.go: EncryptWithCustomScrypt, DecryptWithCustomScrypt, ReencryptPrivateKey, kdf", "keypair/key.go: GenerateKeyPair", "signature/signature.go: Sign, Verify"]}
{"id": "C95", "title": "Signatures and the random function on the instructions of the assembly", "statement": "With the routines of p256_asm_amd64.s themselves, which are wrong on some inputs (C68): a pair that sm2.Sign returns determines its nonce, and it is a valid signature exactly if the abscissa computed for that nonce is right modulo N, hence whenever that one multiplication is a clean run, whatever the other attempts did; the same for ECDSA with keys on this curve. On a clean run sm2.Verify and the ECDSA verification accept exactly the valid signatures outside their two exceptions, so signatures made and verified on clean runs are accepted outside them. Honest proofs of the random function are accepted if the multiplications of both sides are clean and none has the scalar N - 6. The inverses need no assumption: the order multiplication is right on all inputs.", "quantifier": "for all keys in [1, N-2] (ECDSA: all; random function: [1, N-1]), messages, identities, digests, pairs (r, s), randomness and hash functions of the right size", "why_tests_cant": "the inputs on which the assembly goes wrong are too rare to be met by tests, and keys, messages and nonces are unbounded", "anchors": ["sm2/signature.go: Sign, Verify", "sm2/p256_amd64.go: CombinedMult, ScalarBaseMult, ScalarMult, Inverse", "sm2/p256_asm_amd64.s", "signature/signature.go: Sign, Verify", "vrf/vrf.go: Vrf, Verify"]}
{"id": "C96", "title": "SM2 keys on amd64 from generation to a received signature", "statement": "With the instructions of p256_asm_amd64.s for the SM2 curve: the multiplication behind every key does not depend on leading zeros of the scalar; a generated key pair (ECDSA or SM2) has its scalar below the order and the public key that the assembly computes, and if that run is clean and the scalar not 0, the public key is D G and the key comes back unchanged from any sequence of storing and reading (file, WIF, encrypted, new password). A signature made with it by any scheme that signs is on the SM2 curve and names the multiplications of its maker and receiver; if these are clean, it serialises, and a receiver with the public key and the signature as bytes reads both and accepts exactly if none of two named coincidences occurs (the scalar N - 6, or equal summands). For every string of bytes, the receiver with a public key P of this curve ends; if the string can be read as a signature and the one multiplication for it is clean, it is accepted exactly if the message is not empty and the numbers satisfy the standard's equation for P without one of these coincidences; a string that cannot be read is refused.", "quantifier": "for all random sources, received strings of bytes, schemes, messages and identities below 2^60 bytes, randomness of the signer, hash functions, scrypt functions and ciphers of the right shape", "why_tests_cant": "keys, nonces, messages and storage sequences are unbounded, and the inputs on which the assembly is wrong too rare to be met", "anchors": ["keypair/key.go: GenerateKeyPair, SerializePrivateKey, DeserializePrivateKey, SerializePublicKey, DeserializePublicKey", "keypair/encrypt.go", "signature/signature.go: Sign, Verify, Serialize, Deserialize", "sm2/signature.go: Sign, Verify", "sm2/p256_amd64.go", "sm2/p256_asm_amd64.s"]}
{"id": "C97", "title": "What the nonces of SM2 signatures give away", "statement": "A signature that sm2.Sign returns and its nonce determine the private key: D is the only solution in [0, N) of D (r + s) = k - s. For two signatures whose nonces satisfy k' = a k + b the key is the only solution of one linear equation, unless the signatures satisfy two congruences that hold for every key; with the same nonce twice this exception means the same signature for the same e. The same for one nonce in an SM2 and an ECDSA signature. Two runs of Sign with the same AES key have the same private key, entropy and digest and return the same signature, or give two inputs of SHA-512 that agree in the first half of the hash; the counters of the SM2 and ECDSA signers do not meet within 2^32 blocks, so under one AES key no block serves both.", "quantifier": "for all keys with D + 1 invertible, messages and identities below 2^60 bytes, entropies of equal length, hash functions and ciphers of the right size, and curve methods", "why_tests_cant": "the keys, messages and random bytes are unbounded, and a repeated nonce does not occur in tests", "anchors": ["sm2/signature.go: Sign", "signature/signature.go: Sign"]}
{"id": "C98", "title": "What the random number of a VRF proof gives away", "statement": "A proof is s and t with 1 <= s < N and t = r - s D mod N, so the proof and its random number r determine the private key D. Two proofs by one key whose numbers satisfy r' = x r + y determine it too, unless s' = x s and t' = x t + y; with the same number twice the exception is that s and t are the same. The same for a proof and an SM2 signature whose nonce is x r + y. Evaluate draws r with the function that also draws the keys of GenerateKeyPair: if the random source delivers the bytes from which the key was made, then r = D, and the proof alone determines the key by D (1 - s) = t, unless s = 1.", "quantifier": "for all keys on a supported curve of prime order, messages, random numbers, hash functions of the right size and curve methods (nothing is assumed of these), all random bytes before and after", "why_tests_cant": "keys, messages and numbers are unbounded, and crypto/rand does not repeat itself in a test", "anchors": ["vrf/vrf_ec.go: Evaluate", "ec/key.go: GenerateECKeyPair"]}
{"id": "C99", "title": "ECDSA signatures do not determine the signer or the message", "statement": "For bytes that are a pair r, s of an ECDSA scheme (64 bytes, or the scheme and two numbers of equal length), accepted by Deserialize and Verify with the public key P for a message with the number e: the key - P - (2 e / r) G is different from P and accepts the same bytes for the same message, and for every other non-empty message with the number e' the key P + ((e - e') / r) G accepts the same bytes, if these are not the point at infinity; the second is P exactly if e = e' modulo N. With the private key D of P, (D + (e - e') / r) mod N is the private key of the latter, so signers can present their bytes as a signature for another message with a key pair of theirs. These keys are ordinary: they can be stored and read again.", "quantifier": "for all public keys on P-256 and the SM2 curve, byte strings below 2^60 bytes, messages, schemes and hash functions", "why_tests_cant": "the statement is about the existence of keys for every signature and every other message; a test checks given keys", "anchors": ["signature/signature.go: Verify, Deserialize", "keypair/key.go: SerializePublicKey, DeserializePublicKey"]}
{"id": "C100", "title": "One signature with one key for two messages", "statement": "If r, s is an ECDSA signature with the public key P for the number e, it is one for e' too if e' = e modulo N or (e + e') G + 2 r P = O, and for no other e' if r + N is not below the field's prime. Therefore, for every two non-empty messages whose numbers differ modulo N also up to sign, every ECDSA scheme and every nonce n with r = x(n G) mod N not 0, there are a key pair D and an s (2 r D = -(e1 + e2), s n = e1 + r D modulo N) such that the same bytes are accepted by Deserialize and Verify with this key for both messages. With SM3withSM2 it is not so: if the same bytes are accepted with one key for two messages, the messages have the same number (hash with the identity and key) modulo N.", "quantifier": "for all keys on P-256 and the SM2 curve, messages and signatures below 2^60 bytes, nonces, schemes, identities and hash functions", "why_tests_cant": "keys, nonces and pairs of messages are unbounded; the second part states that no second message exists", "anchors": ["signature/signature.go: Verify, Deserialize", "sm2/signature.go: Verify"]}
{"id": "C101", "title": "What the bytes of a secp256k1 signature say about the signer", "statement": "If a scheme byte and a compact signature (header, r, s) are accepted by Deserialize and Verify for the message m and the key Q, then they are accepted for a non-empty message m' and a key Q' exactly when Q' = Q + ((e - e') / r) G, where e and e' are the numbers of the digests: for each message exactly one key at most, for the same message only the signer. Ethereum signatures do not determine the signer: bytes accepted for m and Q are accepted for every non-empty m' with the two different points Q + ((e - e') / r) G and -(Q + ((e + e') / r) G), as far as they are not infinity; so for every non-empty message there is an Ethereum key with which these bytes are accepted.", "quantifier": "for all keys, messages, byte strings, schemes, hash functions (32 bytes for Keccak), both versions of btcec, both builds of go-ethereum; operations on points that compute in the group", "why_tests_cant": "the keys that accept given bytes are determined by group equations, over all messages", "anchors": ["signature/signature.go: Verify, Deserialize", "signature/secp256k1.go: Secp256k1Verify"]}
{"id": "C102", "title": "What two received signatures with the same r give away", "statement": "If two byte strings that hold pairs (r, s) and (r, s') are accepted by Deserialize and Verify for one key on P-256 or the SM2 curve and the messages with the numbers e and e', and r + N is not below the field's prime, then the private key D is the only solution in [0, N) of D r (s' - s) = s e' - s' e, or the only solution of D r (s' + s) = -(s e' + s' e), modulo N; or e = e' modulo N and s' is s or N - s. For compact signatures on secp256k1 with the same header and r, D is the only solution of the first equation, or s = s' and e = e' modulo N. For Ethereum signatures with the same r it is as on P-256, but without the exception N - s. Two SM3withSM2 signatures (r, s), (r', s') with the same abscissa x = r - e = r' - e' modulo N, x + N not below the prime: D is the only solution of D (r' + s' - r - s) = s - s' or of D (r' + s' + r + s) = -(s + s'), or the signatures are equal and e = e', or they are (r, s) and (N - r, N - s) with e' = e - 2 r; the last case occurs: with (r, s) for e, (N - r, N - s) is accepted for e - 2 r. Two Ed25519 signatures with the same first half, for a key a B: a is the only solution of a (h - h') = S - S' modulo the order of B, h and h' the challenges, or h = h' and S = S'. No assumption is made on how the signatures were made.", "quantifier": "for all key pairs, messages and byte strings (below 2^60 bytes on P-256 and SM2), schemes, hash functions, both versions of btcec, both builds of go-ethereum", "why_tests_cant": "a repeated r does not occur in tests; the keys, messages and signatures are unbounded", "anchors": ["signature/signature.go: Verify, Deserialize", "signature/secp256k1.go: Secp256k1Verify", "sm2/signature.go: Verify"]}
{"id": "C103", "title": "What the nonces of SM2 ciphertexts give away", "statement": "The nonce of a ciphertext and the public key open it: the data are the bytes behind the first 96, exclusive or the key derived from the nonce times the public key. Two ciphertexts under one public key with the same nonce: the exclusive or of what is behind the first 96 bytes is that of the data, so one text gives the other as far as it reaches. If neither run rejected a nonce, this is visible: the same first 64 bytes mean the same nonce. The AES key from which the nonces are drawn depends on the public key, the entropy and the SM3 hash of the data: two runs under one public key with the same AES key have the same entropy and data and return the same ciphertext, or give a collision of SM3 or two inputs of SHA-512 that agree in the first half of the hash.", "quantifier": "for all public keys on the SM2 curve, all data below 2^60 bytes, all entropy, numbers of attempts, and all multiplications with 32-byte coordinates (the third part: right multiples of the base point)", "why_tests_cant": "a repeated nonce does not occur in tests; data, keys and entropy are unbounded", "anchors": ["sm2/encryption.go: Encrypt, sm3kdf"]}
{"id": "C104", "title": "What protected keys give away without the password", "statement": "The stored ciphertext is 16 bytes longer than the secret, and as the scalar is stored without leading zeros, its length n+16 gives away that 256^(n-1) <= D < 256^n. Two keys encrypted under the same password, salt and parameters: the exclusive or of the texts is that of the secrets whatever the addresses, so one key gives the other of the same length, and the texts are equal exactly if the secrets are. For records of the legacy aes-256-ctr the salt is made from the address, so this holds for any two records of one address under one password. Such records can be changed without the password: if one opens to the scalar D, the record with d exclusive-ored to its ciphertext opens under the same password to the scalar D xor d, with the public key of that scalar.", "quantifier": "for all private keys, addresses, passwords, salts and scrypt parameters that Go represents, all ciphertexts and all changes of the same length", "why_tests_cant": "the relation ranges over pairs of records and all modifications of a ciphertext; a test sees single records under fresh random salts", "anchors": ["keypair/encrypt.go: EncryptWithCustomScrypt, DecryptWithCustomScrypt, saltFromAddress, ctrCipher, gcmCipher"]}
